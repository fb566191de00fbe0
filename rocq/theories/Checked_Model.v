(** Field.collect_sql_errors, core/model/field.py:2480-2503, over the fields of a project, and the references
    View.referenced_fields adds (core/model/view.py:952-967), in terms of the references of Deps_Model and of the
    expansion of Subst_Model. *)
From Coq Require Import List String Ascii Bool.
From Verif Require Import PyBase PyStr PyRefs Deps_Model Subst_Model.
Import ListNotations.
Local Open Scope string_scope.
Local Open Scope list_scope.

Inductive problem := PSelf | PTemplate | PRef (t : string).
(** References that were not found *)
Definition unknown (l : list ref) : list string := flat_map (fun x => match x with inl t => [t] | inr _ => [] end) l.

Section Checked.
  Variable get_field : string -> string -> res dfield.
  (** collect_sql_errors of a field that has sql, 2480-2503 *)
  Definition sql_errors (fuel : nat) (f : dfield) (s : string) : res (list problem) :=
    let self := if String.eqb s ("${" ++ d_name f ++ "}") then [PSelf] else [] in
    refs <- get_referenced get_field fuel f ;;
    Ok (self ++ match refs with None => [PTemplate] | Some l => map PRef (unknown l) end).
  (** The calls of it, 1819-1820, 2007-2008 and 2183-2184: for every field with sql that is not cumulative.  The ends
      of durations (2119) are left out. *)
  Definition field_report (fuel : nat) (f : dfield) : res (list problem) :=
    match d_sql f with
    | Some s => if String.eqb (d_type f) "cumulative" then Ok [] else sql_errors fuel f s
    | None => Ok []
    end.
  Definition report (fuel : nat) (fs : list dfield) : res (list (dfield * problem)) :=
    concatM (fun f => es <- field_report fuel f ;; Ok (map (pair f) es)) fs.
  (** What view.referenced_fields lists as not found, view.py:952-967: nothing for merged results *)
  Definition view_report (fuel : nat) (f : dfield) : res (list string) :=
    m <- is_merged_result get_field fuel f ;;
    if (m : bool) then Ok []
    else refs <- get_referenced get_field fuel f ;; Ok (match refs with None => [] | Some l => unknown l end).

  (** The same fields as raw_sql_query reads them, 510-515 and 2550-2574; [wrap] is apply_dimension_group_time_sql for
      a timeframe and the identity otherwise. *)
  Variable wrap : dfield -> string -> string.
  Variable alias : dfield -> string.
  Definition as_x (f : dfield) : xfield :=
    XField (id f) (d_view f) (String.eqb (d_type f) "number" && d_measure f) (d_sql f) (wrap f) (alias f).
  Definition lookup_x (v t : string) : res xfield := g <- get_field v t ;; Ok (as_x g).
  Definition expansion (fuel : nat) (f : dfield) : res raw_result := raw_sql_query lookup_x fuel (as_x f).
End Checked.
