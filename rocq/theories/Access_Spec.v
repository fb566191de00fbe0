(** What "visible to the current user" means, stated over the project's raw content only
    (properties C01-C03).  Nothing here mentions the lookup functions of the model. *)
From Verif Require Import PyBase PyStr Core_Model.
Local Open Scope string_scope.
Local Open Scope list_scope.

(** The grant called [n] is the first one declared with that name. *)
Definition grant_named (p : project) (n : string) (g : grant) : Prop :=
  exists pre post, p_grants p = pre ++ g :: post /\ g_name g = n /\ ~ In n (map g_name pre).

(** The user dictionary maps [a] to the (non-null) value [v]. *)
Definition carries (u : user_attrs) (a v : string) : Prop :=
  exists pre post, u = pre ++ (a, Some v) :: post /\ ~ In a (map fst pre).

(** Satisfied: the user does not carry the attribute, or carries an allowed value. *)
Definition grant_satisfied (u : user_attrs) (g : grant) : Prop :=
  forall v, carries u (g_attr g) v -> In v (g_allowed g).

(** An object naming the grants [required] is permitted. *)
Definition permitted (p : project) (required : list string) : Prop :=
  forall u, p_user p = Some u ->
  forall n, In n required -> exists g, grant_named p n g /\ grant_satisfied u g.

(** Some named grant does not exist (only noticed when a user is set). *)
Definition names_unknown_grant (p : project) (required : list string) : Prop :=
  p_user p <> None /\ exists n, In n required /\ ~ In n (map g_name (p_grants p)).

Definition field_permitted (p : project) (v : view_def) (fd : field_def) : Prop :=
  permitted p (vd_grants v) /\ permitted p (fd_grants fd).

(** The Field objects a definition stands for. *)
Inductive stands_for (v : view_def) (fd : field_def) : bool -> field_obj -> Prop :=
| sf_plain e : e = false \/ fd_kind fd <> DimGroup ->
    stands_for v fd e (FieldObj (vd_name v) fd None (fd_hidden fd))
| sf_timeframe t : fd_kind fd = DimGroup -> In t (fd_timeframes fd) ->
    stands_for v fd true (FieldObj (vd_name v) fd (Some t) (String.eqb t "raw" || fd_hidden fd))
| sf_interval i : fd_kind fd = DimGroup -> fd_timeframes fd = [] -> In i (fd_intervals fd) ->
    stands_for v fd true (FieldObj (vd_name v) fd (Some (i ++ "s")%string) (fd_hidden fd)).

(** [f] comes from a view and a definition of the project that both admit the current user. *)
Definition visible_field (p : project) (e : bool) (f : field_obj) : Prop :=
  exists v fd, In v (p_views p) /\ In fd (vd_fields v) /\ field_permitted p v fd /\ stands_for v fd e f.

(** The implicit count of a view the user may see. *)
Definition implicit_count (p : project) (f : field_obj) : Prop :=
  exists v, In v (p_views p) /\ permitted p (vd_grants v) /\
            f = FieldObj (vd_name v) count_def None false.

(** The name under which a Field object is addressed inside its view. *)
Definition addressed_as (f : field_obj) (n : string) : Prop :=
  match fd_kind (fo_def f), fo_dg f with
  | DimGroup, Some d =>
      if String.eqb (fd_type (fo_def f)) "time" then n = (lower (fd_name (fo_def f)) ++ "_" ++ d)%string
      else if String.eqb (fd_type (fo_def f)) "duration" then n = (d ++ "_" ++ lower (fd_name (fo_def f)))%string
      else n = lower (fd_name (fo_def f))
  | _, _ => n = lower (fd_name (fo_def f))
  end.

(** A project with no dots in its declared names (enforced by valid_name, base.py:23-28). *)
Definition same_but_views (p : project) (vs : list view_def) : project :=
  Project (p_grants p) vs (p_dashboards p) (p_user p).
