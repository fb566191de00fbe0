(** View.fields and View._all_fields, core/model/view.py:970-996, with the memo of a View object as state. *)
From Coq Require Import List String Bool.
From Verif Require Import PyBase PyStr.
Import ListNotations.
Local Open Scope string_scope.
Local Open Scope list_scope.

Record fdef := FDef {
  fd_name : string;
  fd_group : bool;              (* field_type is dimension_group *)
  fd_timeframes : list string;
  fd_intervals : list string;
  fd_hidden : bool;
  fd_access : bool              (* project.can_access_field *)
}.
(** a Field: the definition's name, the chosen dimension group, hidden *)
Record vfield := VField { vf_name : string; vf_group : option string; vf_hidden : bool }.
(** 978-996 *)
Definition field_entries (expand : bool) (f : fdef) : list vfield :=
  if fd_access f then
    if expand && fd_group f then
      match fd_timeframes f with
      | _ :: _ => map (fun t => VField (fd_name f) (Some t) (if String.eqb t "raw" then true else fd_hidden f)) (fd_timeframes f)
      | [] => map (fun i => VField (fd_name f) (Some (i ++ "s")%string) (fd_hidden f)) (fd_intervals f)
      end
    else [VField (fd_name f) None (fd_hidden f)]
  else [].
Definition all_fields (defs : list fdef) (expand : bool) : list vfield := flat_map (field_entries expand) defs.
(** 970-976: the memo is used when it is not empty, whatever the flag it was computed with *)
Definition memo := list vfield.
Definition fields (defs : list fdef) (m : memo) (show_hidden expand : bool) : list vfield * memo :=
  let m := match m with [] => all_fields defs expand | _ => m end in
  (if show_hidden then m else filter (fun f => negb (vf_hidden f)) m, m).
(** calls on one object, from its creation *)
Fixpoint history (defs : list fdef) (m : memo) (calls : list (bool * bool)) : memo :=
  match calls with [] => m | (h, e) :: calls => history defs (snd (fields defs m h e)) calls end.
