(** Core objects of a project and their access-checked listing and lookup.
    Models metrics_layer/core/model/project.py, view.py and field.py as far as visibility and
    name resolution are concerned.  Simplifications: user attribute values and allowed values are
    strings (an explicit None value is kept as [None]); the [model] argument of the lookups, which
    is only stored inside the View object, is dropped; caching is modelled separately (Cache_Model.v);
    View.fields is called once per freshly built View, so its memo is irrelevant here
    (see ViewFields_Model.v). *)
From Verif Require Import PyBase PyStr.
Local Open Scope string_scope.
Local Open Scope list_scope.
Local Open Scope nat_scope.

(** field.py:44-50 ZenlyticFieldType *)
Inductive fkind := Measure | Dimension | DimGroup.

(** The part of a field's YAML definition used for visibility and naming, field.py:142-245.
    [fd_name] is as written in the project. Falsy timeframes / intervals are []. *)
Record field_def := FieldDef {
  fd_name : string;
  fd_kind : fkind;
  fd_type : string;
  fd_timeframes : list string;
  fd_intervals : list string;
  fd_hidden : bool;
  fd_grants : list string;
  fd_pk : bool;
  fd_tags : list string }.

(** View definition, view.py:60-70 and 182-191. Access filters are (field, user attribute) pairs. *)
Record view_def := ViewDef {
  vd_name : string;
  vd_hidden : bool;
  vd_grants : list string;
  vd_fields : list field_def;
  vd_access_filters : list (string * string) }.

(** model.py:30-45 AccessGrant *)
Record grant := Grant { g_name : string; g_attr : string; g_allowed : list string }.

(** dashboard.py:109-120, name already as written *)
Record dash_def := DashDef { dd_name : string; dd_grants : list string }.

(** The user dictionary: attribute -> value, [None] for an explicit null. *)
Definition user_attrs := list (string * option string).

(** project.py:24-46. Grants are the concatenation of all models' access_grants (379-380). *)
Record project := Project {
  p_grants : list grant;
  p_views : list view_def;
  p_dashboards : list dash_def;
  p_user : option user_attrs }.

(** A Field object, field.py:145-160: its view's name, definition, dimension group and visibility. *)
Record field_obj := FieldObj {
  fo_view : string;
  fo_def : field_def;
  fo_dg : option string;
  fo_hidden : bool }.

(** Field.name: Field.__init__ lower-cases the name, field.py:151-152 *)
Definition fo_name (f : field_obj) : string := lower (fd_name (fo_def f)).

(** next((ag for ag in access_grants() if ag.name == n)) or QueryError, project.py:382-386 *)
Definition get_access_grant (p : project) (n : string) : res grant :=
  match find (fun g => String.eqb (g_name g) n) (p_grants p) with
  | Some g => Ok g
  | None => Err QueryError
  end.

(** One decision of the loop project.py:402-410. *)
Definition grant_decision (u : user_attrs) (g : grant) : bool :=
  match assoc (g_attr g) u with
  | Some (Some v) => mem v (g_allowed g)
  | _ => true
  end.

(** Project._can_access_object, project.py:398-414 *)
Definition can_access_object (p : project) (required : list string) : res bool :=
  match p_user p with
  | None => Ok true
  | Some u =>
      match required with
      | [] => Ok true
      | _ =>
          ds <- mapM (fun n => g <- get_access_grant p n ;; Ok (grant_decision u g)) required ;;
          Ok (forallb (fun b => b) ds)
      end
  end.

(** Project.can_access_view / can_access_field, project.py:391-396: the view is checked first, then
    the field; both are always evaluated when neither raises. *)
Definition can_access_view (p : project) (v : view_def) : res bool := can_access_object p (vd_grants v).
Definition can_access_field (p : project) (v : view_def) (fd : field_def) : res bool :=
  cv <- can_access_view p v ;;
  cf <- can_access_object p (fd_grants fd) ;;
  Ok (cf && cv).

(** Project._all_views / views, project.py:416-426 *)
Definition views (p : project) (show_hidden : bool) : res (list view_def) :=
  filterM (fun v => b <- can_access_view p v ;; Ok (b && (show_hidden || negb (vd_hidden v)))) (p_views p).

(** Project.get_view, project.py:428-436: views() with the default show_hidden=True *)
Definition get_view (p : project) (n : string) : res view_def :=
  vs <- views p true ;;
  match find (fun v => String.eqb (vd_name v) n) vs with
  | Some v => Ok v
  | None => Err AccessDenied
  end.

(** One iteration of View._all_fields after the access check, view.py:985-995 *)
Definition expand_field (v : view_def) (fd : field_def) (expand : bool) : list field_obj :=
  match expand, fd_kind fd with
  | true, DimGroup =>
      match fd_timeframes fd with
      | [] => map (fun i => FieldObj (vd_name v) fd (Some (i ++ "s")%string) (fd_hidden fd)) (fd_intervals fd)
      | _ :: _ =>
          map (fun t => FieldObj (vd_name v) fd (Some t) (String.eqb t "raw" || fd_hidden fd))
              (fd_timeframes fd)
      end
  | _, _ => [FieldObj (vd_name v) fd None (fd_hidden fd)]
  end.

(** View._all_fields, view.py:978-996 *)
Definition view_all_fields (p : project) (v : view_def) (expand : bool) : res (list field_obj) :=
  concatM (fun fd => b <- can_access_field p v fd ;; Ok (if b then expand_field v fd expand else []))
          (vd_fields v).

(** View.fields on a fresh View object, view.py:970-976 *)
Definition view_fields (p : project) (v : view_def) (show_hidden expand : bool) : res (list field_obj) :=
  fs <- view_all_fields p v expand ;;
  Ok (if show_hidden then fs else filter (fun f => negb (fo_hidden f)) fs).

(** Project.fields, project.py:462-489 *)
Definition fields (p : project) (vn : option string) (show_hidden expand : bool) : res (list field_obj) :=
  match vn with
  | None => vs <- views p true ;; concatM (fun v => view_fields p v show_hidden expand) vs
  | Some n => v <- get_view p n ;; view_fields p v show_hidden expand
  end.

(** Field.alias(with_view=False), field.py:482-494 *)
Definition alias (f : field_obj) : string :=
  let dg := match fo_dg f with Some d => d | None => "None" end in
  match fd_kind (fo_def f) with
  | DimGroup =>
      if String.eqb (fd_type (fo_def f)) "time" then (fo_name f ++ "_" ++ dg)%string
      else if String.eqb (fd_type (fo_def f)) "duration" then (dg ++ "_" ++ fo_name f)%string
      else fo_name f
  | _ => fo_name f
  end.

(** Field.alias(with_view=True) and Field.id, field.py:175-179 and 492-494 *)
Definition alias_with_view (f : field_obj) : string := (fo_view f ++ "_" ++ alias f)%string.
Definition field_id (f : field_obj) : string := (fo_view f ++ "." ++ alias f)%string.

(** Field.default_intervals, field.py:147 *)
Definition default_intervals : list string :=
  ["second"; "minute"; "hour"; "day"; "week"; "month"; "quarter"; "year"].

(** Field.dimension_group_names, field.py:894-899 (a missing intervals key is []) *)
Definition dimension_group_names (f : field_obj) : list string :=
  match fd_kind (fo_def f) with
  | DimGroup =>
      if String.eqb (fd_type (fo_def f)) "time" then
        map (fun t => (fo_name f ++ "_" ++ t)%string) (fd_timeframes (fo_def f))
      else if String.eqb (fd_type (fo_def f)) "duration" then
        map (fun t => (t ++ "s_" ++ fo_name f)%string)
            (match fd_intervals (fo_def f) with [] => default_intervals | l => l end)
      else []
  | _ => []
  end.

(** Field.get_dimension_group_name, field.py:901-906 *)
Definition get_dimension_group_name (f : field_obj) (n : string) : option string :=
  if String.eqb (fd_type (fo_def f)) "duration" && contains ("_" ++ fo_name f) n then
    Some (replace ("_" ++ fo_name f) "" n)
  else if String.eqb (fd_type (fo_def f)) "time" then
    Some (replace (fo_name f ++ "_") "" n)
  else None.

(** Field.equal, field.py:879-892. The side effect on an unexpanded dimension group (886-888) is
    returned as the updated object. *)
Definition equal (f : field_obj) (name : string) : bool * field_obj :=
  let '(_, vn, n) := field_name_parts name in
  let other_view := match vn with
                    | Some v => negb (String.eqb v "") && negb (String.eqb v (fo_view f))
                    | None => false
                    end in
  if other_view then (false, f) else
  match fd_kind (fo_def f), fo_dg f with
  | DimGroup, None =>
      if mem n (dimension_group_names f)
      then (true, FieldObj (fo_view f) (fo_def f) (get_dimension_group_name f n) (fo_hidden f))
      else (false, f)
  | DimGroup, Some _ => (String.eqb (alias f) n, f)
  | _, _ => (String.eqb (fo_name f) n, f)
  end.

(** Project._parse_field_and_view_name, project.py:540-549. A falsy view_name is None or "". *)
Definition truthy (o : option string) : bool :=
  match o with Some s => negb (String.eqb s "") | None => false end.
Definition opt_eqb (a b : option string) : bool :=
  match a, b with
  | Some x, Some y => String.eqb x y
  | None, None => true
  | _, _ => false
  end.
Definition parse_field_and_view_name (fn : string) (vn : option string) : res (string * option string) :=
  if has_char dot fn then
    let '(_, svn, n) := field_name_parts fn in
    if truthy vn && negb (opt_eqb svn vn) then Err QueryError
    else Ok (lower n, svn)
  else Ok (lower fn, vn).

(** The definition used for the implicit count of a view, project.py:566 *)
Definition count_def : field_def := FieldDef "count" Measure "count" [] [] false [] false [].

(** Project._matching_field_handler, project.py:551-576 *)
Definition matching_field_handler (p : project) (m : list field_obj) (n : string) (vn : option string)
  : res field_obj :=
  match m with
  | [f] => Ok f
  | _ :: _ :: _ => Err QueryError
  | [] =>
      match vn with
      | Some v =>
          if String.eqb n "count" && negb (String.eqb v "")
          then vd <- get_view p v ;; Ok (FieldObj (vd_name vd) count_def None false)
          else Err AccessDenied
      | None => Err AccessDenied
      end
  end.

(** Project.get_field without its lru_cache, project.py:500-506 *)
Definition get_field (p : project) (fn : string) (vn : option string) : res field_obj :=
  nv <- parse_field_and_view_name fn vn ;;
  fs <- fields p (snd nv) true true ;;
  matching_field_handler p (filter (fun f => fst (equal f (fst nv))) fs) (fst nv) (snd nv).

(** Project.get_field_by_name, project.py:515-520 *)
Definition get_field_by_name (p : project) (fn : string) (vn : option string) : res field_obj :=
  nv <- parse_field_and_view_name fn vn ;;
  fs <- fields p (snd nv) true false ;;
  matching_field_handler p (filter (fun f => String.eqb (fo_name f) (fst nv)) fs) (fst nv) (snd nv).

(** Project.get_field_by_tag, project.py:522-531.  The join graphs of a field (JoinGraph_Model.v)
    are a parameter here; [jgs = None] is the default. Tag options: the tag and its plural/singular. *)
Fixpoint last_is_s (s : string) : bool :=
  match s with
  | EmptyString => false
  | String c EmptyString => Ascii.eqb c "s"
  | String _ r => last_is_s r
  end.
Fixpoint drop_last (s : string) : string :=
  match s with
  | EmptyString => EmptyString
  | String _ EmptyString => EmptyString
  | String c r => String c (drop_last r)
  end.
Definition tag_options (t : string) : list string :=
  if last_is_s t then [t; drop_last t] else [t; (t ++ "s")%string].
Definition get_field_by_tag (join_graphs_of : field_obj -> list string)
    (p : project) (t : string) (vn : option string) (jgs : option (list string)) : res field_obj :=
  if String.eqb t "" then Err IndexError (* tag_name[-1] *) else
  fs <- fields p vn true true ;;
  let m := filter (fun f => existsb (fun x => mem x (tag_options t)) (fd_tags (fo_def f))) fs in
  let m := match jgs with
           | Some (j :: js) => filter (fun f => existsb (fun x => mem x (join_graphs_of f)) (j :: js)) m
           | _ => m
           end in
  matching_field_handler p m t vn.

(** Project.does_field_exist, project.py:533-538: only AccessDenied is caught *)
Definition does_field_exist (p : project) (fn : string) (vn : option string) : res bool :=
  match get_field p fn vn with
  | Ok _ => Ok true
  | Err AccessDenied => Ok false
  | Err e => Err e
  end.

(** Project._all_dashboards / get_dashboard, project.py:344-364; names are lower-cased, dashboard.py:111-112 *)
Definition dashboards (p : project) : res (list dash_def) :=
  filterM (fun d => can_access_object p (dd_grants d)) (p_dashboards p).
Definition get_dashboard (p : project) (n : string) : res dash_def :=
  ds <- dashboards p ;;
  match find (fun d => String.eqb (lower (dd_name d)) n) ds with
  | Some d => Ok d
  | None => Err AccessDenied
  end.

(** Project.deduplicate_fields, project.py:589-596 *)
Definition deduplicate_fields (l : list field_obj) : list field_obj := dedup_by field_id l.
