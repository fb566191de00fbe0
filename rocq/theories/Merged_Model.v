(** Model of metrics_layer/core/sql/query_merged_results.py: the query that joins the sub queries of a
    merged result.  SQL text of columns and IFNULL calls is kept as a tree instead of a string; the
    WITH clauses, HAVING and LIMIT are not modelled. *)
From Verif Require Import PyBase PyStr PySort.
Local Open Scope string_scope.
Local Open Scope list_scope.
Local Open Scope nat_scope.

(** What query_merged_results.py reads of a field: id(), alias(with_view=True), "view.name" and
    "name" joined by a dot (line 96), dimension_group and datatype. *)
Record mcol := MC { mc_id : string; mc_alias : string; mc_key : string;
                    mc_group : option string; mc_datatype : option string }.

(** query_merged_results.py:82-146: a column of a sub query, or IFNULL/NVL/COALESCE/ISNULL of two
    expressions (query_dialect.py:203-214; all four return the first argument unless it is NULL). *)
Inductive sqle := SCol (cte col : string) | SIfNull (a b : sqle).

(** The definition handed over by merged_query_resolve.py:90-102. Dicts are association lists in
    insertion order; [mf_mapping] is mapping_lookup, its entries are (cte, field). *)
Record mconf := MF {
  mf_type : string;
  mf_metrics : list (string * list mcol);
  mf_dims : list (string * list mcol);
  mf_hashes : list string;
  mf_mapping : list (string * list (string * string));
  mf_merged : list (mcol * string) }.

(** One equality of the join criteria: first CTE column, second CTE column, and whether both are
    cast to TIMESTAMP (query_merged_results.py:66-77). *)
Record meq := ME { me_left : sqle; me_right : sqle; me_cast : bool }.
Inductive mjoin :=
| MFrom (h : string)
| MCross (h : string)
| MOuter (h : string) (on : option (list meq)).      (* None is the literal 1=1 *)

Definition opt_str_eqb (a b : option string) : bool :=
  match a, b with
  | None, None => true
  | Some x, Some y => String.eqb x y
  | _, _ => false
  end.

(** query_merged_results.py:48 *)
Definition no_dimensions (c : mconf) : bool :=
  forallb (fun hf => match snd hf with [] => true | _ => false end) (mf_dims c).

Definition dims_of (c : mconf) (h : string) : res (list mcol) :=
  match assoc h (mf_dims c) with Some l => Ok l | None => Err KeyError end.

(** query_merged_results.py:65-77, the loop over the positions of the first sub query's dimensions *)
Fixpoint eq_pairs (c : mconf) (h0 h : string) (a b : list mcol) : res (list meq) :=
  match a, b with
  | [], _ => Ok []
  | _ :: _, [] => Err IndexError
  | x :: a', y :: b' =>
      let cast := String.eqb (mf_type c) "BIGQUERY" && negb (opt_str_eqb (mc_datatype x) (mc_datatype y)) in
      r <- eq_pairs c h0 h a' b' ;;
      Ok (ME (SCol h0 (mc_alias x)) (SCol h (mc_alias y)) cast :: r)
  end.

(** query_merged_results.py:59-79 *)
Definition join_criteria (c : mconf) (h0 h : string) : res (option (list meq)) :=
  if no_dimensions c then Ok None else
  first <- dims_of c h0 ;;
  match first with
  | [] => Ok (Some [])
  | _ => second <- dims_of c h ;; l <- eq_pairs c h0 h first second ;; Ok (Some l)
  end.

(** query_merged_results.py:44-55 *)
Definition join_one (c : mconf) (h0 h : string) : res mjoin :=
  if String.eqb (mf_type c) "REDSHIFT" && no_dimensions c then Ok (MCross h)
  else on <- join_criteria c h0 h ;; Ok (MOuter h on).
Definition build_from (c : mconf) : res (list mjoin) :=
  match mf_hashes c with
  | [] => Ok []
  | h0 :: hs => js <- mapM (join_one c h0) hs ;; Ok (MFrom h0 :: js)
  end.

(** sorted(d.items()): keys are distinct, so only they decide *)
Definition sorted_items {B} (d : list (string * B)) : list (string * B) :=
  isort (fun a b => String.leb (fst a) (fst b)) d.
Definition flat_items (d : list (string * list mcol)) : list (string * mcol) :=
  flat_map (fun hf => map (pair (fst hf)) (snd hf)) d.

(** query_merged_results.py:83-90: the metric columns *)
Definition metric_select (c : mconf) : list (string * mcol) :=
  dedup_by (fun p => mc_alias (snd p)) (flat_items (sorted_items (mf_metrics c))).

(** query_merged_results.py:96-104 *)
Definition with_group (f : mcol) (key : string) : string :=
  match mc_group f with Some g => (key ++ "_" ++ g)%string | None => key end.

(** query_merged_results.py:92-107: the entries appended to mapping_lookup, in order *)
Definition lookup_entries (c : mconf) : list (string * (string * string)) :=
  flat_map (fun p => let f := snd p in
      match assoc (mc_key f) (mf_mapping c) with
      | Some ms => map (fun m => (with_group f (mc_key f), (fst m, with_group f (snd m)))) ms
      | None => []
      end) (flat_items (mf_dims c)).
Definition entries_for (c : mconf) (id : string) : list (string * string) :=
  map snd (filter (fun e => String.eqb id (fst e)) (lookup_entries c)).

(** query_merged_results.py:110 *)
Definition all_dim_ids (c : mconf) : list string := map (fun p => mc_id (snd p)) (flat_items (mf_dims c)).

(** query_merged_results.py:140-146 *)
Fixpoint nested_if_null (l : list (string * string)) : res sqle :=
  match l with
  | [] => Err IndexError
  | [m] => Ok (SCol (fst m) (replace "." "_" (snd m)))
  | m :: r => e <- nested_if_null r ;; Ok (SIfNull (SCol (fst m) (replace "." "_" (snd m))) e)
  end.

Fixpoint set_item {B} (k : string) (v : B) (d : list (string * B)) : list (string * B) :=
  match d with
  | [] => [(k, v)]
  | (k', v') :: r => if String.eqb k k' then (k, v) :: r else (k', v') :: set_item k v r
  end.

(** query_merged_results.py:111-126, one iteration *)
Definition dim_step (c : mconf) (acc : list (string * sqle)) (p : string * mcol) : res (list (string * sqle)) :=
  let '(h, f) := p in
  let a := mc_alias f in
  let base := match assoc a acc with None => SCol h a | Some e => SIfNull e (SCol h a) end in
  match entries_for c (mc_id f) with
  | [] => Ok (set_item a base acc)
  | es =>
      n <- nested_if_null (filter (fun e => mem (snd e) (all_dim_ids c)) es) ;;
      Ok (set_item a (SIfNull (SCol h a) n) acc)
  end.
Fixpoint dim_loop (c : mconf) (acc : list (string * sqle)) (l : list (string * mcol))
  : res (list (string * sqle)) :=
  match l with
  | [] => Ok acc
  | p :: r => acc' <- dim_step c acc p ;; dim_loop c acc' r
  end.
(** query_merged_results.py:109-126 *)
Definition dim_select (c : mconf) : res (list (string * sqle)) :=
  dim_loop c [] (flat_items (sorted_items (mf_dims c))).

(** One output column: an expression, or the replaced SQL text of a merged metric *)
Inductive sel := SelExpr (e : sqle) | SelText (s : string).
Fixpoint merged_cols (existing : list string) (l : list (mcol * string)) : list (string * sel) :=
  match l with
  | [] => []
  | (f, s) :: r => if mem (mc_alias f) existing then merged_cols existing r
                   else (mc_alias f, SelText s) :: merged_cols (mc_alias f :: existing) r
  end.
(** query_merged_results.py:82-138 *)
Definition select_columns (c : mconf) : res (list (string * sel)) :=
  let ms := map (fun p => (mc_alias (snd p), SelExpr (SCol (fst p) (mc_alias (snd p))))) (metric_select c) in
  ds <- dim_select c ;;
  Ok (ms ++ map (fun p => (fst p, SelExpr (snd p))) ds
         ++ merged_cols (map fst ms ++ map fst ds) (mf_merged c)).
