(** A long lived Project object: mutable content, current user, lru caches and the memoised join
    graph.  Models project.py:48-113 (hash, refresh_cache, set_user, add_field, remove_field),
    128-134 (join_graph), 185-225 (replace_objects), the lru_cache decorators at 462, 500, 515, and
    the temporary field of query_generator.py:393-423.
    The uncached lookups are those of Core_Model.v.

    lru_cache stores an answer under the hash of (self, arguments) together with the arguments; two
    Project values are compared by identity (Project defines __hash__ and no __eq__), so for one
    Project object the key is the project hash plus the arguments, and an exception is not stored.
    The content part of the hash is computed once per object (cached_property, 66-73) and is therefore
    constant: only the user part varies (52-54).
    Parameters: [dumps] is json.dumps(user, sort_keys=True), [hash] Python's string hash, [build] the
    construction of the join graph from the project. *)
From Verif Require Import PyBase PyStr Core_Model.
Local Open Scope string_scope.
Local Open Scope list_scope.

(** A model file as far as the project needs it: its name and access grants (model.py:132-142). *)
Record model_def := ModelDef { m_name : string; m_grants : list grant }.

Definition fargs := (option string * bool * bool)%type.      (* view_name, show_hidden, expand *)
Definition largs := (string * option string)%type.           (* field_name, view_name *)

Definition fargs_eqb (a b : fargs) : bool :=
  let '(v, s, e) := a in let '(v', s', e') := b in
  opt_eqb v v' && Bool.eqb s s' && Bool.eqb e e'.
Definition largs_eqb (a b : largs) : bool :=
  String.eqb (fst a) (fst b) && opt_eqb (snd a) (snd b).

Section State.
  Variable G : Type.
  Variable dumps : user_attrs -> string.
  Variable hash : string -> Z.
  Variable build : project -> res G.

  Record pstate := PState {
    ps_models : list model_def;
    ps_views : list view_def;
    ps_dash : list dash_def;
    ps_user : option user_attrs;
    ps_fields : list ((Z * fargs) * list field_obj);     (* Project.fields.cache *)
    ps_get : list ((Z * largs) * field_obj);             (* Project.get_field.cache *)
    ps_name : list ((Z * largs) * field_obj);            (* Project.get_field_by_name.cache *)
    ps_graph : option G }.                               (* _join_graph *)

  (** A fresh Project over the same content and user, project.py:24-46 *)
  Definition proj_of (s : pstate) : project :=
    Project (flat_map m_grants (ps_models s)) (ps_views s) (ps_dash s) (ps_user s).

  (** The user dependent part of Project.__hash__, project.py:52-54: a falsy user hashes as "" *)
  Definition ukey (u : option user_attrs) : Z :=
    match u with
    | None | Some [] => hash ""
    | Some u => hash (dumps u)
    end.

  (** Project.refresh_cache, project.py:56-64 *)
  Definition refresh (s : pstate) : pstate :=
    PState (ps_models s) (ps_views s) (ps_dash s) (ps_user s) [] [] [] None.

  (** Project.set_user, project.py:75-76 *)
  Definition set_user (u : option user_attrs) (s : pstate) : pstate :=
    PState (ps_models s) (ps_views s) (ps_dash s) u (ps_fields s) (ps_get s) (ps_name s) (ps_graph s).

  Definition with_views (vs : list view_def) (s : pstate) : pstate :=
    PState (ps_models s) vs (ps_dash s) (ps_user s) (ps_fields s) (ps_get s) (ps_name s) (ps_graph s).

  Definition with_fields (v : view_def) (fs : list field_def) : view_def :=
    ViewDef (vd_name v) (vd_hidden v) (vd_grants v) fs (vd_access_filters v).

  (** Update the first view called [n] in place; None when there is none. *)
  Fixpoint update_view (n : string) (f : view_def -> view_def) (vs : list view_def) : option (list view_def) :=
    match vs with
    | [] => None
    | v :: r => if String.eqb (vd_name v) n then Some (f v :: r)
                else match update_view n f r with Some r' => Some (v :: r') | None => None end
    end.

  (** Project.add_field, project.py:89-101 *)
  Definition add_to_view (fd : field_def) (v : view_def) : view_def :=
    if existsb (fun g => String.eqb (lower (fd_name g)) (lower (fd_name fd))) (vd_fields v)
    then v else with_fields v (vd_fields v ++ [fd]).
  Definition add_field (fd : field_def) (vn : string) (refresh_cache : bool) (s : pstate) : pstate * res unit :=
    match update_view vn (add_to_view fd) (ps_views s) with
    | None => (s, Err AccessDenied)
    | Some vs => let s' := with_views vs s in (if refresh_cache then refresh s' else s', Ok tt)
    end.

  (** Project.remove_field, project.py:103-113: exact comparison of names *)
  Definition remove_from_view (n : string) (v : view_def) : view_def :=
    with_fields v (filter (fun g => negb (String.eqb (fd_name g) n)) (vd_fields v)).
  Definition remove_field (n : string) (vn : string) (refresh_cache : bool) (s : pstate) : pstate * res unit :=
    match update_view vn (remove_from_view n) (ps_views s) with
    | None => (s, Err AccessDenied)
    | Some vs => let s' := with_views vs s in (if refresh_cache then refresh s' else s', Ok tt)
    end.

  (** Cache lookup: the hash and the arguments must agree. *)
  Fixpoint cache_get {K V} (eqb : K -> K -> bool) (h : Z) (k : K) (c : list ((Z * K) * V)) : option V :=
    match c with
    | [] => None
    | ((h', k'), v) :: r => if Z.eqb h h' && eqb k k' then Some v else cache_get eqb h k r
    end.

  (** Project.fields with its cache, project.py:462-489 *)
  Definition c_fields (a : fargs) (s : pstate) : pstate * res (list field_obj) :=
    let h := ukey (ps_user s) in
    match cache_get fargs_eqb h a (ps_fields s) with
    | Some r => (s, Ok r)
    | None =>
        match fields (proj_of s) (fst (fst a)) (snd (fst a)) (snd a) with
        | Ok r => (PState (ps_models s) (ps_views s) (ps_dash s) (ps_user s)
                          (((h, a), r) :: ps_fields s) (ps_get s) (ps_name s) (ps_graph s), Ok r)
        | Err e => (s, Err e)
        end
    end.

  (** Project.get_field with its cache and the inner cached call to fields, project.py:500-506 *)
  Definition c_get_field (a : largs) (s : pstate) : pstate * res field_obj :=
    let h := ukey (ps_user s) in
    match cache_get largs_eqb h a (ps_get s) with
    | Some r => (s, Ok r)
    | None =>
        match parse_field_and_view_name (fst a) (snd a) with
        | Err e => (s, Err e)
        | Ok nv =>
            let '(s1, r1) := c_fields (snd nv, true, true) s in
            match r1 with
            | Err e => (s1, Err e)
            | Ok fs =>
                match matching_field_handler (proj_of s1) (filter (fun f => fst (equal f (fst nv))) fs)
                                             (fst nv) (snd nv) with
                | Err e => (s1, Err e)
                | Ok f => (PState (ps_models s1) (ps_views s1) (ps_dash s1) (ps_user s1)
                                  (ps_fields s1) (((h, a), f) :: ps_get s1) (ps_name s1) (ps_graph s1), Ok f)
                end
            end
        end
    end.

  (** Project.get_field_by_name with its cache, project.py:515-520 *)
  Definition c_get_field_by_name (a : largs) (s : pstate) : pstate * res field_obj :=
    let h := ukey (ps_user s) in
    match cache_get largs_eqb h a (ps_name s) with
    | Some r => (s, Ok r)
    | None =>
        match parse_field_and_view_name (fst a) (snd a) with
        | Err e => (s, Err e)
        | Ok nv =>
            let '(s1, r1) := c_fields (snd nv, true, false) s in
            match r1 with
            | Err e => (s1, Err e)
            | Ok fs =>
                match matching_field_handler (proj_of s1) (filter (fun f => String.eqb (fo_name f) (fst nv)) fs)
                                             (fst nv) (snd nv) with
                | Err e => (s1, Err e)
                | Ok f => (PState (ps_models s1) (ps_views s1) (ps_dash s1) (ps_user s1)
                                  (ps_fields s1) (ps_get s1) (((h, a), f) :: ps_name s1) (ps_graph s1), Ok f)
                end
            end
        end
    end.

  (** Project.join_graph, project.py:128-134 *)
  Definition c_join_graph (s : pstate) : pstate * res G :=
    match ps_graph s with
    | Some g => (s, Ok g)
    | None =>
        match build (proj_of s) with
        | Ok g => (PState (ps_models s) (ps_views s) (ps_dash s) (ps_user s)
                          (ps_fields s) (ps_get s) (ps_name s) (Some g), Ok g)
        | Err e => (s, Err e)
        end
    end.

  (** What a client can do to the object. *)
  Inductive op :=
  | OSetUser (u : option user_attrs)
  | OAdd (fd : field_def) (vn : string) (refresh_cache : bool)
  | ORemove (n : string) (vn : string) (refresh_cache : bool)
  | ORefresh
  | OFields (a : fargs)
  | OGet (a : largs)
  | OGetByName (a : largs)
  | OGraph.

  Definition step (s : pstate) (o : op) : pstate :=
    match o with
    | OSetUser u => set_user u s
    | OAdd fd vn r => fst (add_field fd vn r s)
    | ORemove n vn r => fst (remove_field n vn r s)
    | ORefresh => refresh s
    | OFields a => fst (c_fields a s)
    | OGet a => fst (c_get_field a s)
    | OGetByName a => fst (c_get_field_by_name a s)
    | OGraph => fst (c_join_graph s)
    end.
  Definition run (s : pstate) (ops : list op) : pstate := fold_left step ops s.

  (** A new object, project.py:24-46 *)
  Definition fresh (ms : list model_def) (vs : list view_def) (ds : list dash_def) : pstate :=
    PState ms vs ds None [] [] [] None.

  (** The temporary measure of a non additive query, query_generator.py:393-423: the field is added
      to the (shared) view without refreshing, the sub query is built by [body] on a shallow copy of
      the project (a different object, so the caches of [s] are not touched), the field is removed.
      An exception in [body] propagates and the removal is skipped. *)
  Definition with_temp_field {A} (fd : field_def) (vn : string) (body : project -> res A) (s : pstate)
    : pstate * res A :=
    let '(s1, r1) := add_field fd vn false s in
    match r1 with
    | Err e => (s1, Err e)
    | Ok _ =>
        match body (proj_of s1) with
        | Err e => (s1, Err e)
        | Ok a =>
            let '(s2, r2) := remove_field (fd_name fd) vn false s1 in
            match r2 with Err e => (s2, Err e) | Ok _ => (s2, Ok a) end
        end
    end.

  (** Project.replace_objects, project.py:185-225.  An element of replaced_objects is a view, model or
      dashboard dictionary, one of those kinds without a "name" key, or anything else (ignored). *)
  Inductive robj := RView (v : view_def) | RModel (m : model_def) | RDash (d : dash_def)
                  | RNameless | ROther.
  Definition r_views (l : list robj) := flat_map (fun o => match o with RView v => [v] | _ => [] end) l.
  Definition r_models (l : list robj) := flat_map (fun o => match o with RModel v => [v] | _ => [] end) l.
  Definition r_dash (l : list robj) := flat_map (fun o => match o with RDash v => [v] | _ => [] end) l.
  Definition nameless (o : robj) : bool := match o with RNameless => true | _ => false end.

  (** The content while inside the block, 203-220 *)
  Definition replaced (l : list robj) (s : pstate) : pstate :=
    let keep {A} (nm : A -> string) (new old : list A) :=
      filter (fun x => negb (mem (nm x) (map nm new))) old ++ new in
    refresh (PState (keep m_name (r_models l) (ps_models s)) (keep vd_name (r_views l) (ps_views s))
                    (keep dd_name (r_dash l) (ps_dash s)) (ps_user s) (ps_fields s) (ps_get s) (ps_name s) (ps_graph s)).

  (** The whole with-statement: [body] is anything the caller does inside, it may change the object
      and may raise; the finally clause runs in both cases (221-225).  The user is not restored. *)
  Definition replace_objects {A} (l : list robj) (body : pstate -> pstate * res A) (s : pstate)
    : pstate * res A :=
    if existsb nameless l then (s, Err KeyError)
    else
      let '(s', r) := body (replaced l s) in
      (refresh (PState (ps_models s) (ps_views s) (ps_dash s) (ps_user s')
                       (ps_fields s') (ps_get s') (ps_name s') (ps_graph s')), r).
End State.
