(** Which fields can be queried together: JoinGraph.merged_results_graph (core/model/join_graph.py:193-295),
    Field.join_graphs (core/model/field.py:2749-2794), Field.loses_join_ability_with_other_views (408-432),
    Field.is_cumulative (2688-2698) and Project.joinable_fields (core/model/project.py:491-498), with the values they
    keep between calls.
    Simplified: fields are given by what these functions read of them; project.get_field, get_field_by_name and
    get_mappings are functions of the project (Core_Model, ModelMap_Model); _field_memo (join_graph.py:286-295) only
    repeats these lookups and is left out; a canon date with timeframes is a dimension group of type time. *)
From Coq Require Import List String Bool.
From Verif Require Import PyBase PyStr PySort JoinGraph_Model ModelMap_Model.
Import ListNotations.
Local Open Scope string_scope.
Local Open Scope list_scope.

(** a field of project.fields(model=model): id(), its view, whether it is a measure and its canon_date (None if falsy) *)
Record pfield := PField { pf_id : string; pf_view : string; pf_measure : bool; pf_canon : option string }.
(** the field found for a canon date; no timeframes property is None *)
Record canon := Canon { cn_view : string; cn_name : string; cn_frames : option (list string) }.
(** canon_date.id() once dimension_group is set, field.py:175-179, 482-494 *)
Definition canon_id (c : canon) (tf : string) : string := (cn_view c ++ "." ++ cn_name c ++ "_" ++ tf)%string.

(** The project as one user sees it *)
Record mproj := MProj {
  mp_fields : list pfield;                            (* project.fields(): all views, groups not expanded *)
  mp_views : list string;                             (* project.views() *)
  mp_expanded : string -> res (list string);          (* ids of project.fields(view_name, expand_dimension_groups=True) *)
  mp_by_name : string -> res canon;                   (* project.get_field_by_name *)
  mp_id : string -> res string;                       (* project.get_field(name).id() *)
  mp_graph : graph;                                   (* the join graph *)
  mp_models : list (string * res mapping) }.          (* each model's get_mappings(dimensions_only=True) *)

Notation edges := (list (string * string))%type.
Definition pair_root (a b : string) : string := (a ++ "_" ++ b)%string.
Definition root_node (root tf : string) : string := (root ++ "_" ++ tf)%string.
Definition core_root : string := "canon_date_core".      (* definitions.py:30 *)

(** join_graph.py:252-267, one measure: the new edges and root nodes *)
Definition canon_step (P : mproj) (root : string) (must : option (list string)) (m : pfield)
  : res (edges * list string * string) :=
  h <- join_graph_hash (mp_graph P) (pf_view m) ;;
  match (match must with Some l => mem h l | None => true end), pf_canon m with
  | true, Some d =>
      match mp_by_name P d with
      | Err AccessDenied => Ok ([], [], h)
      | Err e => Err e
      | Ok c => match cn_frames c with
                | None => Err TypeError
                | Some tfs => Ok (flat_map (fun tf => [(root_node root tf, canon_id c tf); (root_node root tf, pf_id m)]) tfs,
                                  map (root_node root) tfs, h)
                end
      end
  | _, _ => Ok ([], [], h)
  end.
(** _add_canon_dates_to_merged_result, 246-271: edges, sorted root nodes, join hashes (a set, here a list) *)
Definition add_canon_dates (P : mproj) (ms : list pfield) (root : string) (must : option (list string))
  : res (edges * list string * list string) :=
  rs <- mapM (canon_step P root must) ms ;;
  Ok (flat_map (fun r => fst (fst r)) rs, sort_str (dedup (flat_map (fun r => snd (fst r)) rs)), map snd rs).

(** _add_mappings_to_merged_result, 273-284 *)
Definition map_step (P : mproj) (must roots : list string) (from : string) (e : entry) (r : reference) : res edges :=
  if mem (en_hash e) must && mem (rf_hash r) must
  then a <- mp_id P from ;; b <- mp_id P (rf_field r) ;; Ok (flat_map (fun n => [(n, a); (n, b)]) roots)
  else Ok [].
Definition add_mappings (P : mproj) (maps : mapping) (must roots : list string) (measures_only : bool) : res edges :=
  concatM (fun fe : string * entry =>
    if en_canon (snd fe) then Ok []
    else if measures_only && negb (ftype_eqb (en_type (snd fe)) FMeasure) then Ok []
    else concatM (map_step P must roots (fst fe) (snd fe)) (en_refs (snd fe))) maps.

(** 229-238: the fields of every view that both join graphs can join *)
Definition add_views (P : mproj) (a b : string) (roots : list string) : res edges :=
  concatM (fun v =>
    let ws := weak_join_graph_hashes (mp_graph P) v in
    if mem a ws && mem b ws
    then ids <- mp_expanded P v ;; Ok (flat_map (fun i => map (fun n => (n, i)) roots) ids)
    else Ok []) (mp_views P).

(** itertools.combinations(l, 2) *)
Fixpoint combinations (l : list string) : list (string * string) :=
  match l with [] => [] | a :: l => map (fun b => (a, b)) l ++ combinations l end.

(** 220-242, one pair of join graphs *)
Definition pair_step (P : mproj) (ms : list pfield) (maps : mapping) (ab : string * string) : res edges :=
  let '(a, b) := ab in
  c <- add_canon_dates P ms (pair_root a b) (Some [a; b]) ;;
  let '(e1, roots, _) := c in
  e2 <- add_views P a b roots ;;
  e3 <- add_mappings P maps [a; b] roots false ;;
  Ok (e1 ++ e2 ++ e3).

(** _build_merged_results_graph, 198-244.  The model argument only chooses the mappings: project.fields and
    project.views list every view whatever the model (project.py:416-426, view.py:143-153). *)
Definition dated (P : mproj) : list pfield :=
  filter (fun f => match pf_canon f with Some _ => pf_measure f | None => false end) (mp_fields P).
Definition model_mappings (P : mproj) (model : string) : res mapping :=
  match assoc model (mp_models P) with Some r => r | None => Err AccessDenied end.
Definition build_merged (P : mproj) (model : string) : res edges :=
  maps <- model_mappings P model ;;
  c <- add_canon_dates P (dated P) core_root None ;;
  let '(e0, roots, hs) := c in
  e1 <- add_mappings P maps (dedup hs) roots true ;;
  e2 <- concatM (pair_step P (dated P) maps) (combinations (sort_str (dedup hs))) ;;
  Ok (e0 ++ e1 ++ e2).

(** DiGraph.in_edges(id): every predecessor once, in the order of insertion *)
Definition preds (es : edges) (id : string) : list string :=
  dedup (map fst (filter (fun e => String.eqb (snd e) id) es)).

(** A reference found in a field's sql: a Field, or a name that is not one *)
Record rfield := RField { rf_view : string; rf_measure : bool; rf_cumulative : bool; rf_canon : option string }.
(** The field join_graphs is called on.  [jf_refs] is get_referenced_sql_query(strings_only=False), None for templated
    sql; [jf_sql] is referenced_fields(sql); [jf_explicit] is the is_merged_result property if present. *)
Record jfield := JField {
  jf_id : string; jf_view : string; jf_model : option string; jf_cumulative : bool; jf_number : bool;
  jf_explicit : option bool; jf_refs : option (list (option rfield)); jf_sql : list (option rfield) }.

(** field.py:2688-2698 *)
Definition is_cumulative (f : jfield) : bool :=
  jf_cumulative f || existsb (fun r => match r with Some r => rf_cumulative r | None => false end) (jf_sql f).

(** set equality of two lists *)
Definition subset (a b : list string) : bool := forallb (fun x => mem x b) a.
Definition same_set (a b : list string) : bool := subset a b && subset b a.

(** field.py:408-432; split(".") into exactly two names *)
Definition canon_sets (g : graph) (refs : list (option rfield)) : res (list (list string)) :=
  concatM (fun r =>
    match r with
    | Some r => if rf_measure r && negb (rf_cumulative r)
                then match rf_canon r with
                     | None => Ok []
                     | Some d => match split_char dot d with
                                 | [v; _] => Ok [weak_join_graph_hashes g v]
                                 | _ => Err ValueError
                                 end
                     end
                else Ok []
    | None => Ok []
    end) refs.
Definition loses_join_ability (g : graph) (f : jfield) : res bool :=
  match jf_explicit f with
  | Some b => Ok b
  | None => if jf_number f
            then ss <- canon_sets g (jf_sql f) ;;
                 Ok (match ss with [] => false | s :: _ => existsb (fun t => negb (same_set t s)) ss end)
            else Ok false
  end.

(** field.py:2758-2776: the join graphs every referenced view is in *)
Definition ref_views (f : jfield) : list string :=
  jf_view f :: match jf_refs f with
               | None => []
               | Some l => flat_map (fun r => match r with Some r => [rf_view r] | None => [] end) l
               end.
Definition base_graphs (g : graph) (f : jfield) : list string :=
  filter (fun h => forallb (fun v => mem h (weak_join_graph_hashes g v)) (ref_views f)) (weak_join_graph_hashes g (jf_view f)).

(** field.py:2789-2794; the models' names, [index] raises ValueError *)
Fixpoint index_of (x : string) (l : list string) : res nat :=
  match l with
  | [] => Err ValueError
  | y :: l => if String.eqb y x then Ok 0 else i <- index_of x l ;; Ok (S i)
  end.
Definition wrap (P : mproj) (model : string) (l : list string) : res (list string) :=
  match mp_models P with
  | _ :: _ :: _ => i <- index_of model (map fst (mp_models P)) ;; Ok (map (fun j => ("m" ++ nat_str i ++ "_" ++ j)%string) l)
  | _ => Ok l
  end.

(** merged_results_graph, join_graph.py:193-196: the first graph built is kept whatever the model *)
Definition merged_graph (P : mproj) (kept : option edges) (model : string) : res edges :=
  match kept with Some es => Ok es | None => build_merged P model end.

(** field.py:2750-2787 without its cache: the result and the merged results graph kept afterwards *)
Definition join_graphs (P : mproj) (kept : option edges) (f : jfield) : res (list string) * option edges :=
  match jf_model f with
  | None => (Err QueryError, kept)
  | Some model =>
      if is_cumulative f then (Ok (base_graphs (mp_graph P) f), kept)
      else match merged_graph P kept model with
           | Err e => (Err e, kept)
           | Ok es =>
               (ext <- wrap P model (map (fun n => ("merged_result_" ++ n)%string) (preds es (jf_id f))) ;;
                l <- loses_join_ability (mp_graph P) f ;;
                Ok (if l then ext else sort_str (base_graphs (mp_graph P) f ++ ext)), Some es)
           end
  end.

(** ** Between calls.  Field.join_graphs is kept by lru_cache under the field's hash and equality: the hash of the
    project, whose content part is computed once (project.py:66-73), and the field's id (field.py:162-179).
    refresh_cache (project.py:56-64) drops the join graph and the caches of Project, not this one. *)
Record jstate := JState { js_kept : option edges; js_cache : list (string * string * list string) }.
Definition key_eqb (a b : string * string) : bool := String.eqb (fst a) (fst b) && String.eqb (snd a) (snd b).
Fixpoint lookup (k : string * string) (c : list (string * string * list string)) : option (list string) :=
  match c with [] => None | (k', v) :: c => if key_eqb k' k then Some v else lookup k c end.
(** [world u] is the project as user [u] sees it *)
Notation world := (string -> mproj)%type.
Inductive jop := OCall (f : jfield) | OUser (u : string) | OEdit (w : world).
Record jconf := JConf { jc_world : world; jc_user : string; jc_state : jstate }.
Definition call (c : jconf) (f : jfield) : res (list string) * jconf :=
  match lookup (jc_user c, jf_id f) (js_cache (jc_state c)) with
  | Some v => (Ok v, c)
  | None =>
      let '(r, kept) := join_graphs (jc_world c (jc_user c)) (js_kept (jc_state c)) f in
      (r, JConf (jc_world c) (jc_user c)
            (JState kept (match r with Ok v => (jc_user c, jf_id f, v) :: js_cache (jc_state c) | Err _ => js_cache (jc_state c) end)))
  end.
Definition jstep (c : jconf) (o : jop) : jconf :=
  match o with
  | OCall f => snd (call c f)
  | OUser u => JConf (jc_world c) u (jc_state c)
  | OEdit w => JConf w (jc_user c) (JState None (js_cache (jc_state c)))
  end.
Definition jrun (c : jconf) (os : list jop) : jconf := fold_left jstep os c.
Definition start (w : world) (u : string) : jconf := JConf w u (JState None []).

(** project.py:491-498; the caches do not matter for the set of names *)
Definition joinable_fields (graphs : jfield -> list string) (all given : list jfield) : list jfield :=
  let options := flat_map graphs given in
  filter (fun f => existsb (fun j => mem j options) (graphs f)) all.
