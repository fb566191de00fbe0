(** The reference object for C05: a project with no cache at all.  Every request is answered from the
    current content and user by the functions of Core_Model.v. *)
From Verif Require Import PyBase PyStr Core_Model ProjectState_Model.
Local Open Scope string_scope.
Local Open Scope list_scope.

Section Spec.
  Variable G : Type.
  Variable build : project -> res G.

  Record plain := Plain {
    pl_models : list model_def; pl_views : list view_def; pl_dash : list dash_def; pl_user : option user_attrs }.
  Definition plain_project (c : plain) : project :=
    Project (flat_map m_grants (pl_models c)) (pl_views c) (pl_dash c) (pl_user c).

  (** What the client sees. *)
  Inductive obs :=
  | SeesNothing
  | SeesUnit (r : res unit)
  | SeesFields (r : res (list field_obj))
  | SeesField (r : res field_obj)
  | SeesGraph (r : res G).

  Definition edit_view (vn : string) (f : view_def -> view_def) (c : plain) : plain * obs :=
    match update_view vn f (pl_views c) with
    | None => (c, SeesUnit (Err AccessDenied))
    | Some vs => (Plain (pl_models c) vs (pl_dash c) (pl_user c), SeesUnit (Ok tt))
    end.

  Definition plain_step (c : plain) (o : op) : plain * obs :=
    match o with
    | OSetUser u => (Plain (pl_models c) (pl_views c) (pl_dash c) u, SeesNothing)
    | OAdd fd vn _ => edit_view vn (add_to_view fd) c
    | ORemove n vn _ => edit_view vn (remove_from_view n) c
    | ORefresh => (c, SeesNothing)
    | OFields a => (c, SeesFields (fields (plain_project c) (fst (fst a)) (snd (fst a)) (snd a)))
    | OGet a => (c, SeesField (get_field (plain_project c) (fst a) (snd a)))
    | OGetByName a => (c, SeesField (get_field_by_name (plain_project c) (fst a) (snd a)))
    | OGraph => (c, SeesGraph (build (plain_project c)))
    end.

  Fixpoint plain_trace (c : plain) (ops : list op) : list obs :=
    match ops with
    | [] => []
    | o :: r => let '(c', b) := plain_step c o in b :: plain_trace c' r
    end.

  (** The same requests put to the real, caching object. *)
  Variable dumps : user_attrs -> string.
  Variable hash : string -> Z.
  Definition cached_step (s : pstate G) (o : op) : pstate G * obs :=
    match o with
    | OSetUser u => (set_user G u s, SeesNothing)
    | OAdd fd vn r => let '(s', x) := add_field G fd vn r s in (s', SeesUnit x)
    | ORemove n vn r => let '(s', x) := remove_field G n vn r s in (s', SeesUnit x)
    | ORefresh => (refresh G s, SeesNothing)
    | OFields a => let '(s', x) := c_fields G dumps hash a s in (s', SeesFields x)
    | OGet a => let '(s', x) := c_get_field G dumps hash a s in (s', SeesField x)
    | OGetByName a => let '(s', x) := c_get_field_by_name G dumps hash a s in (s', SeesField x)
    | OGraph => let '(s', x) := c_join_graph G build s in (s', SeesGraph x)
    end.
  Fixpoint cached_trace (s : pstate G) (ops : list op) : list obs :=
    match ops with
    | [] => []
    | o :: r => let '(s', b) := cached_step s o in b :: cached_trace s' r
    end.

  (** Users in force at some point of a history (None at the start). *)
  Definition users (ops : list op) : list (option user_attrs) :=
    None :: flat_map (fun o => match o with OSetUser u => [u] | _ => [] end) ops.

  (** Edits ask for the cache to be refreshed (the default). *)
  Definition refreshing (o : op) : Prop :=
    match o with OAdd _ _ r => r = true | ORemove _ _ r => r = true | _ => True end.

  (** The user is not changed while a join graph built for the previous user is memoised. *)
  Fixpoint graph_not_stale (memoised : bool) (ops : list op) : Prop :=
    match ops with
    | [] => True
    | OSetUser _ :: r => memoised = false /\ graph_not_stale memoised r
    | OGraph :: r => graph_not_stale true r
    | ORefresh :: r => graph_not_stale false r
    | _ :: r => graph_not_stale memoised r
    end.
End Spec.
