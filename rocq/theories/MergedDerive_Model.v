(** Model of MergedSQLQueryResolver.derive_sub_queries (metrics_layer/core/sql/merged_query_resolve.py:
    112-404): how a merged query is split into sub queries.  Funnel queries, the text of the sub
    queries and text (string) where clauses are not modelled. *)
From Verif Require Import PyBase PyStr PySort Merged_Model.
Local Open Scope string_scope.
Local Open Scope list_scope.
Local Open Scope nat_scope.

(** ** Strings *)
(** str.split(sep) for a non-empty separator; the fuel is the length of the text plus one *)
Fixpoint split_fuel (fuel : nat) (sep cur s : string) : list string :=
  match fuel with
  | O => [cur]
  | S k => match strip_prefix sep s with
           | Some r => cur :: split_fuel k sep "" r
           | None => match s with
                     | EmptyString => [cur]
                     | String a r => split_fuel k sep (cur ++ String a "")%string r
                     end
           end
  end.
Definition split_str (sep s : string) : list string := split_fuel (S (String.length s)) sep "" s.
(** str.strip("_") *)
Fixpoint lstrip_us (s : string) : string :=
  match s with String "_" r => lstrip_us r | _ => s end.
Fixpoint rstrip_us (s : string) : string :=
  match s with
  | EmptyString => EmptyString
  | String a r => match rstrip_us r with
                  | EmptyString => if Ascii.eqb a "_" then EmptyString else String a EmptyString
                  | r' => String a r'
                  end
  end.
Definition strip_us (s : string) : string := lstrip_us (rstrip_us s).
Definition digitb (a : ascii) : bool := (48 <=? nat_of_ascii a) && (nat_of_ascii a <=? 57).
(** str.isdigit(), on the ASCII texts that occur here *)
Fixpoint all_digits (s : string) : bool :=
  match s with EmptyString => true | String a r => digitb a && all_digits r end.
Definition isdigit (s : string) : bool := negb (String.eqb s "") && all_digits s.

(** ** Fields and project *)
(** What the resolver reads of a field: id(), view.name, name, whether it is a measure,
    dimension_group, canon_date, join_graphs() and is_merged_result. *)
Record xfield := XF { x_id : string; x_view : string; x_name : string; x_measure : bool;
                      x_group : option string; x_canon : option string; x_graphs : list string;
                      x_merged : bool }.
Definition field_key (f : xfield) : string := (x_view f ++ "." ++ x_name f)%string.

(** A mapping of the model (model.py:377-429): the join graph of the field and its references. *)
Record mref := MR { mr_field : string; mr_to : string }.
Record mmap := MM { mm_from : string; mm_refs : list mref }.
(** An entry of dimension_mapping: field, from_join_hash, and to_join_hash where there is one. *)
Record minfo := MI { mi_field : string; mi_from : string; mi_to : option string }.

(** Project lookups are arbitrary functions: get_field, get_field_by_name, referenced_fields(sql) of
    a merged metric (None: a name that is not a field), and get_mappings(dimensions_only=True). *)
Record xproj := XP { xp_field : string -> res xfield; xp_by_name : string -> res xfield;
                     xp_refs : xfield -> list (option xfield); xp_maps : list (string * mmap) }.

(** A where condition: a field with its other entries (key, value type, str(value)), or a group of
    conditions with its other entries. *)
Record pv := PV { pv_type : string; pv_str : string }.
Inductive wcond :=
| WLeaf (field : string) (rest : list (string * pv))
| WGroup (rest : list (string * pv)) (conds : list wcond).

Notation fdict := (list (string * list xfield)).
Definition get_list {B} (k : string) (d : list (string * list B)) : list B :=
  match assoc k d with Some l => l | None => [] end.
(** d[k].append(v) on a defaultdict(list) *)
Definition push {B} (k : string) (v : B) (d : list (string * list B)) : list (string * list B) :=
  set_item k (get_list k d ++ [v]) d.
Definition has_key {B} (k : string) (d : list (string * B)) : bool :=
  match assoc k d with Some _ => true | None => false end.

(** str.replace(".", "_") *)
Definition undot (s : string) : string := replace "." "_" s.

(** merged_query_resolve.py:391-394 *)
Definition cte_name (canon hash : string) : string := (undot canon ++ "__" ++ hash)%string.

(** merged_query_resolve.py:376-379 (the join graphs that are not merged results) *)
Definition base_graphs (f : xfield) : list string :=
  filter (fun j => negb (contains "merged_result" j)) (x_graphs f).
(** merged_query_resolve.py:368-379 *)
Definition join_hash_key (P : xproj) (f : xfield) : res string :=
  match (if x_measure f then x_canon f else None) with
  | Some d => g <- xp_by_name P d ;; Ok (join_with "_" (base_graphs g))
  | None => Ok (join_with "_" (base_graphs f))
  end.

(** merged_query_resolve.py:381-389 *)
Definition hash_subqueries (h : string) : list string :=
  flat_map (fun piece => let c := strip_us piece in
                         if isdigit c then [("subquery_" ++ c)%string] else []) (split_str "subquery" h).
Definition hash_contains (h : string) (graphs : list string) : bool :=
  existsb (fun g => mem g (hash_subqueries h)) graphs.

(** sorted(list(set(v)), key=v.index): equality of fields is equality of ids (field.py:167-170) *)
Definition dedup_fields (d : fdict) : fdict := map (fun kv => (fst kv, dedup_by x_id (snd kv))) d.

(** ** Metrics (merged_query_resolve.py:120-168) *)
Definition split_metrics (fs : list xfield) : list xfield * list xfield :=
  (filter x_merged fs, filter (fun f => negb (x_merged f)) fs).
(** merged_query_resolve.py:129-134: measures used only in having; the id lists are fixed before the
    loop, so a field may be appended twice *)
Fixpoint add_having (sids mids : list string) (hs : list xfield) (ms : list xfield * list xfield)
  : list xfield * list xfield :=
  match hs with
  | [] => ms
  | f :: r =>
      let ms' := if negb (mem (x_id f) sids) && negb (x_merged f) then (fst ms, snd ms ++ [f])
                 else if negb (mem (x_id f) mids) && x_merged f then (fst ms ++ [f], snd ms) else ms in
      add_having sids mids r ms'
  end.

(** merged_query_resolve.py:139-151 *)
Definition add_ref (P : xproj) (qm : fdict) (o : option xfield) : res fdict :=
  match o with
  | None => Err QueryError
  | Some f =>
      match x_canon f with
      | None => Err QueryError
      | Some d => h <- join_hash_key P f ;; Ok (push (cte_name d h) f qm)
      end
  end.
Fixpoint foldM {A B} (f : B -> A -> res B) (l : list A) (b : B) : res B :=
  match l with [] => Ok b | x :: r => b' <- f b x ;; foldM f r b' end.
(** merged_query_resolve.py:153-167 *)
Definition add_secondary (P : xproj) (qm : fdict) (f : xfield) : res fdict :=
  h <- join_hash_key P f ;;
  match x_canon f with
  | None => Err QueryError
  | Some d =>
      let k := cte_name d h in
      if existsb (fun g => String.eqb (x_id f) (x_id g)) (get_list k qm) then Ok qm else Ok (push k f qm)
  end.
(** merged_query_resolve.py:139-169 *)
Definition metric_groups (P : xproj) (merged secondary : list xfield) : res fdict :=
  qm <- foldM (add_ref P) (flat_map (xp_refs P) merged) [] ;;
  qm <- foldM (add_secondary P) secondary qm ;;
  Ok (dedup_fields qm).

(** ** Canonical dates (merged_query_resolve.py:320-366) *)
Definition opt_mem (o : option string) (l : list string) : bool :=
  match o with Some s => mem s l | None => false end.
Definition overlap (a b : list string) : bool := existsb (fun j => mem j b) a.
(** merged_query_resolve.py:329-351, one field; the state is canon_dates and joinable_sets *)
Definition canon_step (any_metric : bool) (st : list string * list (list string)) (f : xfield)
  : list string * list (list string) :=
  let '(dates, sets) := st in
  let graphs := base_graphs f in
  let all_j := forallb (overlap graphs) sets in
  let any_j := existsb (overlap graphs) sets in
  let cannot := negb all_j || match sets with [] => true | _ => false end in
  let missing := negb (opt_mem (x_canon f) dates) && x_measure f in
  let measure_cannot := if any_metric then cannot && x_measure f else cannot in
  let dim_cannot := negb (x_measure f) && negb any_j in
  match x_canon f with
  | Some d => if measure_cannot || dim_cannot || missing then (dates ++ [d], sets ++ [graphs]) else st
  | None => st
  end.
(** merged_query_resolve.py:354-362: for every ordered pair of dates; returns dimension_mapping and the
    join hashes *)
Definition pair_entries (P : xproj) (dates : list string) : res (list (string * minfo)) :=
  concatM (fun to_ => concatM (fun from_ =>
      if String.eqb to_ from_ then Ok [] else
      f <- xp_by_name P from_ ;; h <- join_hash_key P f ;;
      Ok [(to_, MI from_ (cte_name from_ h) None)]) dates) dates.
(** merged_query_resolve.py:363-366: sorted by str(position in query_metrics), or by the hash itself *)
Fixpoint index_of (k : string) (l : list string) : option nat :=
  match l with
  | [] => None
  | x :: r => if String.eqb k x then Some 0 else match index_of k r with Some n => Some (S n) | None => None end
  end.
Definition hash_order (qm : fdict) (h : string) : string :=
  match index_of h (map fst qm) with Some n => nat_str n | None => h end.
Definition canon_mapping (P : xproj) (qm : fdict) (merged secondary dims : list xfield)
  : res (list (string * list minfo) * list string * list string) :=
  ref_dates <- mapM (fun o => match o with
                              | Some f => match x_canon f with Some d => Ok d | None => Err TypeError end
                              | None => Err AttributeError
                              end) (flat_map (xp_refs P) merged) ;;
  let any_metric := negb (match secondary ++ merged with [] => true | _ => false end) in
  let dates := fst (fold_left (canon_step any_metric) (flat_map snd qm ++ dims) (ref_dates, [])) in
  let dates := sort_str (dedup dates) in
  es <- pair_entries P dates ;;
  Ok (fold_left (fun d e => push (fst e) (snd e) d) es [],
      dates,
      isort (fun a b => String.leb (hash_order qm a) (hash_order qm b))
            (dedup (map (fun e => mi_from (snd e)) es))).

(** ** Model mappings (merged_query_resolve.py:174-186).  map_to is updated in place, so a reference
    keeps the last sub query it was found in. *)
Record mstate := MST { ms_lookup : list (string * list (string * string));   (* mapping_lookup: (field, join hash) *)
                       ms_dims : list (string * list minfo) }.
Fixpoint map_hashes (key : string) (mp : mmap) (r : mref) (cur : option string) (hs : list string) (st : mstate) : mstate :=
  match hs with
  | [] => st
  | h :: rest =>
      let hit := hash_contains h [mr_to r] in
      let lk := if hit then push key (mr_field r, h) (ms_lookup st) else ms_lookup st in
      let cur' := if hit then Some h else cur in
      let from := match cur' with Some x => x | None => mm_from mp end in
      map_hashes key mp r cur' rest (MST lk (push key (MI (mr_field r) from (Some (mr_to r))) (ms_dims st)))
  end.
Definition map_refs (used : list string) (key : string) (mp : mmap) (st : mstate) : mstate :=
  fold_left (fun st r => map_hashes key mp r None used st) (mm_refs mp) st.
Definition model_mappings (P : xproj) (used : list string) (st : mstate) : mstate :=
  fold_left (fun st km => map_refs used (fst km) (snd km) st) (xp_maps P) st.

(** ** Dimensions (merged_query_resolve.py:188-253) *)
Record dstate := DS { ds_metrics : fdict; ds_dims : fdict; ds_map : list (string * list minfo) }.
(** str(None) is "None" *)
Definition grouped_key (field : string) (g : option string) : string :=
  (field ++ "_" ++ match g with Some x => x | None => "None" end)%string.
(** reading a defaultdict creates the entry *)
Definition touch {B} (k : string) (d : list (string * list B)) : list (string * list B) :=
  match assoc k d with Some _ => d | None => set_item k [] d end.

(** merged_query_resolve.py:219-238, the loop over the mapping entries for one sub query *)
Fixpoint attach_mapped (P : xproj) (qm : fdict) (h : string) (es : list minfo) : res (list xfield) :=
  match es with
  | [] => Ok []
  | e :: r =>
      f <- xp_field P (mi_field e) ;;
      if has_key (mi_from e) qm && String.eqb (mi_from e) h then
        l <- attach_mapped P qm h r ;; Ok (f :: l)
      else
        match x_canon f with
        | None => Err AttributeError
        | Some _ =>
            match mi_to e with
            | None => Err KeyError
            | Some t => if contains t h then Ok [f] else attach_mapped P qm h r
            end
        end
  end.
(** merged_query_resolve.py:201-238, one sub query: the fields attached to it *)
Definition attach_one (P : xproj) (qm : fdict) (dm : list (string * list minfo)) (f : xfield) (h : string)
  : res (list xfield) :=
  if hash_contains h (x_graphs f) then Ok [f]
  else match assoc (field_key f) dm with
       | None => Err QueryError
       | Some es => attach_mapped P qm h es
       end.
Fixpoint attach_all (P : xproj) (qm : fdict) (dm : list (string * list minfo)) (f : xfield)
  (hs : list string) (qd : fdict) : res fdict :=
  match hs with
  | [] => Ok qd
  | h :: r =>
      l <- attach_one P qm dm f h ;;
      attach_all P qm dm f r (fold_left (fun d x => push h x d) l qd)
  end.
(** merged_query_resolve.py:240-253: a dimension that joins to no sub query *)
Definition lone_dimension (P : xproj) (f : xfield) (hash : string) (st : dstate) : res dstate :=
  match x_canon f with
  | None => Err AttributeError
  | Some d =>
      let k := (undot d ++ "__" ++ hash)%string in
      let qd := push k f (ds_dims st) in
      qd <- match assoc (field_key f) (ds_map st) with
            | None => Ok qd
            | Some es => foldM (fun qd e =>
                g <- xp_field P (mi_field e) ;;
                match x_canon g, mi_to e with
                | None, _ => Err AttributeError
                | _, None => Err KeyError
                | Some c, Some t => Ok (push (undot c ++ "__" ++ t)%string g qd)
                end) es qd
            end ;;
      Ok (DS (set_item k [] (ds_metrics st)) qd (ds_map st))
  end.
(** merged_query_resolve.py:189-253, one dimension *)
Definition dim_iter (P : xproj) (dates used : list string) (st : dstate) (f : xfield) : res dstate :=
  hash <- join_hash_key P f ;;
  if mem (field_key f) dates then
    let h := (undot (field_key f) ++ "__" ++ hash)%string in
    let dm := touch (field_key f) (ds_map st) in
    qd <- foldM (fun qd e =>
            g <- xp_field P (grouped_key (mi_field e) (x_group f)) ;; Ok (push (mi_from e) g qd))
          (get_list (field_key f) dm) (push h f (ds_dims st)) ;;
    Ok (DS (ds_metrics st) qd dm)
  else
    qd <- attach_all P (ds_metrics st) (ds_map st) f used (ds_dims st) ;;
    let st' := DS (ds_metrics st) qd (ds_map st) in
    if existsb (fun h => hash_contains h (x_graphs f)) used then Ok st' else lone_dimension P f hash st'.

(** ** Where conditions (merged_query_resolve.py:257-318) *)
(** merged_query_resolve.py:297-301 *)
Definition joinable_subqueries (h : string) : list string :=
  map (fun g => strip_us ("subquery" ++ g)%string)
    (filter (fun g => negb (String.eqb g "")) (split_str "subquery" (List.last (split_str "__" h) ""))).
(** merged_query_resolve.py:287-318: the field the condition is put on in sub query [h] *)
Definition where_field (P : xproj) (qm : fdict) (dm : list (string * list minfo)) (h name : string) : res string :=
  let dates := flat_map (fun kv => map x_canon (snd kv)) qm in
  f <- xp_field P name ;;
  let is_canon := existsb (fun o => opt_str_eqb (Some (field_key f)) o) dates in
  hash <- join_hash_key P f ;;
  let with_canon := (x_view f ++ "_" ++ x_name f ++ "__" ++ hash)%string in
  if (negb is_canon && mem hash (joinable_subqueries h)) || (is_canon && contains with_canon h) then Ok name
  else match find (fun e => String.eqb (mi_from e) h) (get_list (field_key f) dm) with
       | Some e =>
           g <- xp_field P (match x_group f with Some g => (mi_field e ++ "_" ++ g)%string | None => mi_field e end) ;;
           Ok (x_id g)
       | None => Ok name
       end.
Fixpoint resolve_cond (P : xproj) (qm : fdict) (dm : list (string * list minfo)) (h : string) (w : wcond) : res wcond :=
  match w with
  | WLeaf n rest => n' <- where_field P qm dm h n ;; Ok (WLeaf n' rest)
  | WGroup rest ws =>
      ws' <- (fix go l := match l with
              | [] => Ok []
              | x :: r => x' <- resolve_cond P qm dm h x ;; r' <- go r ;; Ok (x' :: r')
              end) ws ;;
      Ok (WGroup rest ws')
  end.
(** merged_query_resolve.py:401-404: the JSON text that is hashed; sha256 itself is taken as injective.
    [repr] is Python's str() of a list of conditions; keys are sorted by json.dumps. *)
Section Where.
  Variable repr : list wcond -> string.
  Definition cond_strings (w : wcond) : list (string * string) :=
    isort (fun a b => String.leb (fst a) (fst b))
      match w with
      | WLeaf n rest => ("field", n) :: map (fun kv => (fst kv, pv_str (snd kv))) rest
      | WGroup rest ws => ("conditions", repr ws) :: map (fun kv => (fst kv, pv_str (snd kv))) rest
      end.
  Definition pair_eqb (a b : string * string) : bool := String.eqb (fst a) (fst b) && String.eqb (snd a) (snd b).
  Fixpoint list_eqb (a b : list (string * string)) : bool :=
    match a, b with
    | [], [] => true
    | x :: a', y :: b' => pair_eqb x y && list_eqb a' b'
    | _, _ => false
    end.
  Definition same_hash (v w : wcond) : bool := list_eqb (cond_strings v) (cond_strings w).
  (** merged_query_resolve.py:263-274: one condition per hash, in order of first appearance; the last
      condition with that hash is kept *)
  Fixpoint dedup_conds (seen : list wcond) (all l : list wcond) : list wcond :=
    match l with
    | [] => []
    | w :: r => if existsb (same_hash w) seen then dedup_conds seen all r
                else List.last (filter (same_hash w) all) w :: dedup_conds (w :: seen) all r
    end.
  Definition clean_where (l : list wcond) : list wcond := dedup_conds [] l l.

  (** ** derive_sub_queries (merged_query_resolve.py:112-274) *)
  Record derived := DV { dv_merged : list xfield; dv_metrics : fdict; dv_dims : fdict;
                         dv_where : list (string * list wcond);
                         dv_lookup : list (string * list (string * string));
                         dv_dates : list string; dv_used : list string; dv_map : list (string * list minfo) }.
  Definition derive (P : xproj) (metrics having dimensions : list string) (wheres : list wcond) : res derived :=
    mfs <- mapM (xp_field P) metrics ;;
    let '(merged0, secondary0) := split_metrics mfs in
    hfs <- mapM (xp_field P) having ;;
    let '(merged, secondary) := add_having (map x_id secondary0) (map x_id merged0) hfs (merged0, secondary0) in
    dfs <- mapM (xp_field P) dimensions ;;
    qm <- metric_groups P merged secondary ;;
    cm <- canon_mapping P qm merged secondary dfs ;;
    let '(dm0, dates, used) := cm in
    let st := model_mappings P used
        (MST (map (fun kv => (fst kv, map (fun e => (mi_field e, mi_from e)) (snd kv))) dm0) dm0) in
    ds <- foldM (dim_iter P dates used) dfs (DS qm [] (ms_dims st)) ;;
    let qd := dedup_fields (ds_dims ds) in
    let keys := dedup (map fst (ds_metrics ds) ++ map fst qd) in
    qw <- mapM (fun h =>
            ws <- mapM (resolve_cond P (ds_metrics ds) (ds_map ds) h) wheres ;; Ok (h, clean_where ws)) keys ;;
    Ok (DV merged (ds_metrics ds) qd qw (ms_lookup st) dates used (ds_map ds)).
End Where.
