(** What a field depends on: Field.referenced_fields and get_referenced_sql_query (core/model/field.py:2505-2548), the
    answers computed from them: is_merged_result (390-408), loses_join_ability_with_other_views (410-433),
    is_cumulative (2688-2698), the list of fields in to_dict (852-862), the views of join_graphs (2751-2776); and
    required_views (818-838), which decides the joins of a query. *)
From Coq Require Import List String Ascii Bool.
From Verif Require Import PyBase PyStr PyRefs.
Import ListNotations.
Local Open Scope string_scope.
Local Open Scope list_scope.

(** What these functions read of a field: [d_sql] is Field.sql, [d_sides] sql_start and sql_end, [d_of] the measure of a
    cumulative metric, [d_date] canon_date, [d_flag] the is_merged_result property when the definition has one. *)
Record dfield := DField {
  d_view : string;
  d_name : string;
  d_type : string;
  d_measure : bool;
  d_sql : option string;
  d_sides : option (string * string);
  d_of : option string;
  d_date : option string;
  d_flag : option bool
}.
(** A reference that was not found stays a text *)
Notation ref := (string + dfield)%type.

Section Deps.
  Variable get_field : string -> string -> res dfield.   (* get_field_with_view_info, 2605-2614: the view, the reference *)

  Definition templated (f : dfield) : bool := match d_sql f with Some s => contains "{%" s | None => false end.
  (** referenced_fields, 2524-2548.  An empty sql has no references.  A field of type number is replaced by what
      get_referenced_sql_query says of it, whose branches for other types do not apply to it. *)
  Fixpoint referenced_fields (fuel : nat) (view : string) (sql : option string) : res (list ref) :=
    match fuel with
    | O => Err RecursionError
    | S n =>
        match sql with
        | None => Ok []
        | Some s =>
            concatM (fun t =>
              if String.eqb t "TABLE" then Ok []
              else match get_field view t with
                   | Err AccessDenied => Ok [inl t]
                   | Err e => Err e
                   | Ok g => if String.eqb (d_type g) "number"
                             then if templated g then Ok [] else referenced_fields n (d_view g) (d_sql g)
                             else Ok [inr g]
                   end) (fields_to_replace s)
        end
    end.
  (** get_referenced_sql_query(strings_only=False), 2505-2522.  A cumulative metric without measure gives [None]. *)
  Definition get_referenced (fuel : nat) (f : dfield) : res (option (list ref)) :=
    if templated f then Ok None
    else if String.eqb (d_type f) "cumulative" then
      match d_of f with
      | None => Ok (Some [])
      | Some m => g <- get_field (d_view f) m ;; Ok (Some [inr g])
      end
    else match d_sides f with
         | Some (a, b) =>
             if String.eqb (d_type f) "duration"
             then x <- referenced_fields fuel (d_view f) (Some a) ;; y <- referenced_fields fuel (d_view f) (Some b) ;; Ok (Some (x ++ y))
             else l <- referenced_fields fuel (d_view f) (d_sql f) ;; Ok (Some l)
         | None => l <- referenced_fields fuel (d_view f) (d_sql f) ;; Ok (Some l)
         end.
  (** the fields listed by to_dict, 2519-2521, in some order *)
  Definition id (g : dfield) : string := (d_view g ++ "." ++ d_name g)%string.
  Definition listed (fuel : nat) (f : dfield) : res (option (list string)) :=
    l <- get_referenced fuel f ;;
    Ok (match l with None => None | Some l => Some (dedup (flat_map (fun x => match x with inl _ => [] | inr g => [id g] end) l)) end).

  (** is_merged_result, 390-408: a measure that is not cumulative counts with its date, None included *)
  Definition dated (x : ref) : list (option string) :=
    match x with inr g => if d_measure g && negb (String.eqb (d_type g) "cumulative") then [d_date g] else [] | inl _ => [] end.
  Definition several (l : list (option string)) : bool :=
    match l with [] => false | x :: l => existsb (fun y => negb (match x, y with None, None => true | Some a, Some b => String.eqb a b | _, _ => false end)) l end.
  Definition is_merged_result (fuel : nat) (f : dfield) : res bool :=
    match d_flag f with
    | Some b => Ok b
    | None =>
        if String.eqb (d_type f) "number" && d_measure f
        then l <- referenced_fields fuel (d_view f) (d_sql f) ;; Ok (several (flat_map dated l))
        else Ok false
    end.
  (** is_cumulative, 2688-2698: an empty or missing sql has no references *)
  Definition cumulative_ref (x : ref) : bool := match x with inr g => String.eqb (d_type g) "cumulative" | inl _ => false end.
  Definition is_cumulative (fuel : nat) (f : dfield) : res bool :=
    match d_sql f with
    | None => Ok (String.eqb (d_type f) "cumulative")
    | Some _ => l <- referenced_fields fuel (d_view f) (d_sql f) ;; Ok (String.eqb (d_type f) "cumulative" || existsb cumulative_ref l)
    end.

  (** loses_join_ability_with_other_views, 410-433: the join graphs of the views of the dates, compared as sets *)
  Variable hashes : string -> list string.
  Definition date_view (d : string) : res string := match split_char "." d with [v; _] => Ok v | _ => Err ValueError end.
  Definition same_set (a b : list string) : bool := forallb (fun x => mem x b) a && forallb (fun x => mem x a) b.
  Definition loses_join_ability (fuel : nat) (f : dfield) : res bool :=
    match d_flag f with
    | Some b => Ok b
    | None =>
        if String.eqb (d_type f) "number" && d_measure f
        then l <- referenced_fields fuel (d_view f) (d_sql f) ;;
             hs <- mapM (fun d => v <- date_view d ;; Ok (hashes v)) (flat_map (fun d => match d with Some d => if String.eqb d "" then [] else [d] | None => [] end) (flat_map dated l)) ;;
             Ok (match hs with [] => false | h :: _ => existsb (fun s => negb (same_set s h)) hs end)
        else Ok false
    end.

  (** The views join_graphs asks for, 2758-2765 *)
  Definition graph_views (fuel : nat) (f : dfield) : res (list string) :=
    l <- get_referenced fuel f ;;
    Ok (d_view f :: match l with None => [] | Some l => flat_map (fun x => match x with inr g => [d_view g] | inl _ => [] end) l end).
  (** 2768-2776: the join graphs all of them are in; [hashes] is weak_join_graph_hashes *)
  Definition base_graphs (fuel : nat) (f : dfield) : res (list string) :=
    vs <- graph_views fuel f ;;
    Ok (match vs with [] => [] | v :: vs => filter (fun h => forallb (fun w => mem h (hashes w)) vs) (hashes v) end).

  (** required_views, 818-838; the empty text counts as missing *)
  Definition some_text (o : option string) : bool := match o with Some s => negb (String.eqb s "") | None => false end.
  Definition read_texts (f : dfield) : list string :=
    if some_text (d_sql f) then match d_sql f with Some s => [s] | None => [] end
    else match d_sides f with
         | Some (a, b) => if some_text (Some a) && some_text (Some b) then [a; b] else []
         | None => []
         end.
  Fixpoint required_views (fuel : nat) (f : dfield) : res (list string) :=
    match fuel with
    | O => Err RecursionError
    | S n =>
        vs <- concatM (fun s => concatM (fun t =>
                if String.eqb t "TABLE" then Ok [] else g <- get_field (d_view f) t ;; required_views n g) (fields_to_replace s)) (read_texts f) ;;
        Ok (dedup (d_view f :: vs))
    end.
End Deps.
