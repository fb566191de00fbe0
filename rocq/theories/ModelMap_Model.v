(** Model.mappings and Model.get_mappings, core/model/model.py:144-170 and 377-429. *)
From Coq Require Import List String Bool.
From Verif Require Import PyBase PyStr PySort PyCounter.
Import ListNotations.
Local Open Scope string_scope.
Local Open Scope list_scope.

(** 18-27: a set in the code; it is only tested for membership and enumerated to add the mappings, here in the order
    of the source text. *)
Definition special_values : list string :=
  ["date"; "day_of_year"; "week_of_year"; "week"; "month_of_year"; "month"; "quarter"; "year"].

Inductive ftype := FDim | FMeasure | FGroup.
Definition ftype_eqb (a b : ftype) : bool :=
  match a, b with FDim, FDim | FMeasure, FMeasure | FGroup, FGroup => true | _, _ => false end.
(** what the two functions use of a field: its identity, its type and the join graph hash of its view *)
Record mfield := MField { mf_id : string; mf_type : ftype; mf_hash : string }.
Record reference := Reference { rf_field : string; rf_hash : string }.
Record entry := Entry { en_refs : list reference; en_type : ftype; en_hash : string; en_canon : bool }.
Notation mapping := (list (string * entry))%type.
Notation mapdefs := (list (string * list string))%type.

Definition opt_eqb (a b : option string) : bool :=
  match a, b with Some x, Some y => String.eqb x y | None, None => true | _, _ => false end.

Section WithProject.
  (** project.get_field and project.does_field_exist *)
  Variable get_field : string -> res mfield.
  Variable exists_field : string -> bool.
  (** canon_date of every field of project.fields(), in order *)
  Variable canon_dates : list (option string).

  (** 157-164 *)
  Definition special_fields (name : string) : list string :=
    flat_map (fun dn : option string * nat =>
      match fst dn with
      | None => []
      | Some d => let i := (d ++ "_" ++ name)%string in if exists_field i then [i] else []
      end) (most_common opt_eqb canon_dates).
  (** 145-170, for a dictionary; user is the definition's own mappings *)
  Fixpoint add_special (names : list string) (maps : mapdefs) : res mapdefs :=
    match names with
    | [] => Ok maps
    | n :: names => if mem n (map fst maps) then Err QueryError else add_special names (maps ++ [(n, special_fields n)])
    end.
  Definition mappings (user : mapdefs) : res mapdefs := add_special special_values user.

  (** 413-427 *)
  Fixpoint add_reference (m : mapping) (from : string) (ref : reference) (ff : mfield) (special : bool) : mapping :=
    match m with
    | [] => [(from, Entry [ref] (mf_type ff) (mf_hash ff) special)]
    | (k, e) :: m => if String.eqb k from then (k, Entry (en_refs e ++ [ref]) (en_type e) (en_hash e) (en_canon e)) :: m
                     else (k, e) :: add_reference m from ref ff special
    end.
  (** 400-427: the inner loop *)
  Fixpoint to_loop (special : bool) (from : string) (ff : mfield) (tos : list string) (m : mapping) : res mapping :=
    match tos with
    | [] => Ok m
    | t :: tos =>
        if String.eqb t from then to_loop special from ff tos m
        else match get_field t with
             | Err AccessDenied => to_loop special from ff tos m
             | Err e => Err e
             | Ok tf => if ftype_eqb (mf_type tf) (mf_type ff)
                        then to_loop special from ff tos (add_reference m from (Reference t (mf_hash tf)) ff special)
                        else Err QueryError
             end
    end.
  (** 385-398: the outer loop over the fields of one mapping *)
  Fixpoint from_loop (dims_only special : bool) (all froms : list string) (m : mapping) : res mapping :=
    match froms with
    | [] => Ok m
    | f :: froms =>
        match get_field f with
        | Err AccessDenied => from_loop dims_only special all froms m
        | Err e => Err e
        | Ok ff =>
            if dims_only && ftype_eqb (mf_type ff) FMeasure then from_loop dims_only special all froms m
            else if ftype_eqb (mf_type ff) FGroup && negb special then Err QueryError
            else m <- to_loop special f ff all m ;; from_loop dims_only special all froms m
        end
    end.
  Fixpoint map_loop (dims_only : bool) (maps : mapdefs) (m : mapping) : res mapping :=
    match maps with
    | [] => Ok m
    | (name, fs) :: maps => m <- from_loop dims_only (mem name special_values) fs fs m ;; map_loop dims_only maps m
    end.
  Definition get_mappings (dims_only : bool) (user : mapdefs) : res mapping :=
    maps <- mappings user ;; map_loop dims_only maps [].
End WithProject.
