(** Row level access filters of a query.  Models MetricsLayerDesign.get_access_filter /
    required_views (query_design.py:183-193, 262-288) and the part of
    MetricsLayerQuery.parse_definition / get_query that turns them and the user's [where] into the
    WHERE clause (query_generator.py:42-55, 99-118, 172-174).
    Parameters (oracles, for which nothing is assumed):
    - [refs f]: the views mentioned by the references in a field's sql (Field.required_views,
      field.py:818-838, is the field's own view plus these);
    - [cond f v]: the conditions Filter({field, value}).filter_dict() yields for a user attribute
      value, each already rendered by Filter.sql_query;
    - an enumeration [vs] of the Python set of view names, whose order is unspecified. *)
From Verif Require Import PyBase PyStr Core_Model.
Local Open Scope string_scope.
Local Open Scope list_scope.

Section AccessFilter.
  Variable C : Type.
  Variable refs : field_obj -> list string.
  Variable cond : field_obj -> string -> res (list C).

  (** Field.required_views, field.py:818-830 *)
  Definition required_views_of (f : field_obj) : list string := fo_view f :: refs f.

  (** [self.project._user and self.project._user.get(attr)], query_design.py:272 *)
  Definition user_value (p : project) (attr : string) : option string :=
    match p_user p with
    | None => None
    | Some u => match assoc attr u with
                | Some (Some v) => if String.eqb v "" then None else Some v
                | _ => None
                end
    end.

  (** Loop body for one access filter, query_design.py:268-284. The field is looked up even when the
      user carries no such attribute. *)
  Definition one_access_filter (p : project) (af : string * string) : res (list (field_obj * list C)) :=
    f <- get_field p (fst af) None ;;
    match user_value p (snd af) with
    | Some v => cs <- cond f v ;; Ok [(f, cs)]
    | None => Ok []
    end.

  (** MetricsLayerDesign.get_access_filter, query_design.py:262-288. [vs] enumerates the set
      _fields_to_unique_views(field_lookup.values()).  Conditions are kept as a list, the code joins
      them with " and ". *)
  Definition get_access_filter (p : project) (vs : list string) : res (list C * list field_obj) :=
    rs <- concatM (fun vn => v <- get_view p vn ;;
                             concatM (one_access_filter p) (vd_access_filters v)) vs ;;
    let conditions := flat_map snd rs in
    let fs := map fst rs in
    match conditions with
    | [] => Ok ([], [])
    | _ => Ok (conditions, fs)
    end.

  (** The set {v for field in field_list for v in field.required_views()}, query_design.py:188-190 *)
  Definition unique_views (fl : list field_obj) : list string := dedup (flat_map required_views_of fl).

  (** MetricsLayerDesign.required_views, query_design.py:183-186 *)
  Definition design_required_views (p : project) (lookup : list field_obj) : res (list string) :=
    r <- get_access_filter p (unique_views lookup) ;;
    Ok (unique_views (lookup ++ snd r)).

  (** The WHERE clause: the access filter literal first, then the user's filters, all under
      Criterion.all (query_generator.py:48-51, 103-118, 172-174). *)
  Inductive where_item := AccessLiteral (cs : list C) | UserFilter (c : C).
  Definition where_filters (access : list C) (user_where : list C) : list where_item :=
    (match access with [] => [] | _ => [AccessLiteral access] end) ++ map UserFilter user_where.

  (** Truth of the clause on a row given the truth of each condition. *)
  Definition item_holds {R} (holds : R -> C -> bool) (r : R) (i : where_item) : bool :=
    match i with AccessLiteral cs => forallb (holds r) cs | UserFilter c => holds r c end.
  Definition where_holds {R} (holds : R -> C -> bool) (r : R) (ws : list where_item) : bool :=
    forallb (item_holds holds r) ws.
End AccessFilter.
