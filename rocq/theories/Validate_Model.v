(** Project.validate and _validate_dashboard_names, core/model/project.py:231-342. *)
From Coq Require Import List String Arith Bool.
From Verif Require Import PyBase PyStr PySort PyCounter.
Import ListNotations.
Local Open Scope string_scope.
Local Open Scope list_scope.

(** A call and the exception it may raise, with its text. *)
Inductive outcome (A : Type) :=
| Done (a : A)
| RQuery (text : string)      (* QueryError *)
| RDenied (text : string)     (* AccessDeniedOrDoesNotExistException *)
| ROther (e : exc).           (* any other exception *)
Arguments Done {A}. Arguments RQuery {A}. Arguments RDenied {A}. Arguments ROther {A}.

(** An error: a dictionary of which message, view_name and field_name are kept, or something else (the loop of
    323-327 tests isinstance(e, dict)). *)
Inductive verr :=
| VDict (message : string) (view field : option string)
| VOther (text : string).
(** An element of view.referenced_fields(), view.py:952-967: a field, or a reference that was not found *)
Inductive refitem := RField | RMissing (field_name reference : string).

Record vview := VView {
  vw_name : string;
  vw_filters : list string;                       (* user_attribute of each access filter *)
  vw_table : outcome unit;                        (* view.sql_table_name *)
  vw_refs : outcome (list refitem);               (* view.referenced_fields() *)
  vw_errors : list verr                           (* view.collect_errors() *)
}.
Record vproject := VProject {
  vp_models : list (outcome (list verr));         (* model.collect_errors() *)
  vp_joins : outcome (list verr);                 (* join_graph.collect_errors() *)
  vp_tags : list (outcome unit);                  (* get_field_by_tag("customer") for each join graph *)
  vp_required : list string;                      (* _required_access_filter_user_attributes *)
  vp_views : list vview;
  vp_dashboards : list (string * list verr)       (* name and collect_errors() *)
}.
(** 231-233 *)
Definition perr (m : string) : verr := VDict m None None.
(** 237-242, together with the early return: inl is `return [..]` *)
Fixpoint models_part (l : list (outcome (list verr))) (acc : list verr) : res (list verr + list verr) :=
  match l with
  | [] => Ok (inr acc)
  | Done es :: l => models_part l (acc ++ es)
  | RQuery t :: _ => Ok (inl [perr t])
  | RDenied _ :: _ => Err AccessDenied
  | ROther e :: _ => Err e
  end.
(** 251-259: the text keeps its first line with " name " read as " tag " *)
Definition first_line (s : string) : string := match split_char (Ascii.ascii_of_nat 10) s with x :: _ => x | [] => s end.
Definition tag_text (t : string) : string :=
  (first_line (replace " name " " tag " t) ++ ". Only one field can have the tag ""customer"" per joinable graph.")%string.
Definition tags_part (l : list (outcome unit)) : list verr :=
  flat_map (fun o => match o with RQuery t => [perr (tag_text t)] | _ => [] end) l.
(** 262-285 *)
Definition filters_part (required : list string) (v : vview) : list verr :=
  flat_map (fun a =>
    match vw_filters v with
    | [] => [VDict ("View " ++ vw_name v ++ " does not have any access filters, but an access filter with user attribute " ++ a ++ " is required.")%string (Some (vw_name v)) None]
    | fs => if forallb (fun f => negb (String.eqb f a)) fs
            then [VDict ("View " ++ vw_name v ++ " does not have an access filter with the required user attribute " ++ a)%string (Some (vw_name v)) None]
            else []
    end) required.
(** 300-317 *)
Definition warning := "Warning: ".
Definition ref_error (vname : string) (r : refitem) : list verr :=
  match r with
  | RField => []
  | RMissing f t =>
      let '(t, pre) := if contains warning t then (replace warning "" t, warning) else (t, "") in
      [VDict (pre ++ "Could not locate reference " ++ t ++ " in field " ++ f ++ " in view " ++ vname)%string (Some vname) (Some f)]
  end.
(** 287-318: the variable referenced_fields lives across the iterations *)
Fixpoint views_part (required : list string) (views : list vview) (referenced : option (list refitem)) (acc : list verr) : res (list verr) :=
  match views with
  | [] => Ok acc
  | v :: views =>
      let acc := acc ++ filters_part required v in
      let inview t := VDict (t ++ " in the view " ++ vw_name v)%string (Some (vw_name v)) None in
      let after_refs acc referenced :=
        match referenced with
        | None => Err UnboundLocal
        | Some rs => views_part required views referenced (acc ++ flat_map (ref_error (vw_name v)) rs ++ vw_errors v)
        end in
      let after_table acc :=
        match vw_refs v with
        | Done rs => after_refs acc (Some rs)
        | RQuery t | RDenied t => after_refs (acc ++ [inview t]) referenced
        | ROther e => Err e
        end in
      match vw_table v with
      | Done _ => after_table acc
      | RQuery t => after_table (acc ++ [inview t])
      | RDenied _ => Err AccessDenied
      | ROther e => Err e
      end
  end.
(** 331-342 *)
Fixpoint name_errors (l : list (string * nat)) : list verr :=
  match l with
  | [] => []
  | (n, k) :: l => if Nat.ltb 1 k then perr ("Dashboard name " ++ n ++ " appears " ++ nat_str k ++ " times, make sure dashboard names are unique")%string :: name_errors l else []
  end.
Definition dashboard_names (ds : list (string * list verr)) : list verr := name_errors (most_common String.eqb (map fst ds)).
(** 323-329 *)
Fixpoint clean (seen : list string) (l : list verr) : list verr :=
  match l with
  | [] => []
  | VDict m v f :: l => if mem m seen then clean seen l else VDict m v f :: clean (m :: seen) l
  | VOther _ :: l => clean seen l
  end.
(** 235-329 *)
Definition validate (p : vproject) : res (list verr) :=
  r <- models_part (vp_models p) [] ;;
  match r with
  | inl es => Ok es
  | inr acc =>
      match vp_joins p with
      | RQuery t => Ok [perr t]
      | RDenied _ => Err AccessDenied
      | ROther e => Err e
      | Done es =>
          acc <- views_part (vp_required p) (vp_views p) None (acc ++ es ++ tags_part (vp_tags p)) ;;
          Ok (clean [] (acc ++ flat_map snd (vp_dashboards p) ++ dashboard_names (vp_dashboards p)))
      end
  end.
