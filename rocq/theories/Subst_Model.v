(** Expansion of the references in a field's SQL: Field.raw_sql_query, get_replaced_sql_query, _replace_sql_query and
    replace_fields (core/model/field.py:510-515, 2550-2603). *)
From Coq Require Import List String Ascii Bool.
From Verif Require Import PyBase PyStr PyRefs.
Import ListNotations.
Local Open Scope string_scope.
Local Open Scope list_scope.

(** What expansion reads of a field.  xf_sql is Field.sql (None or text); xf_wrap is apply_dimension_group_time_sql
    for a time dimension group and the identity otherwise.  Durations (2557-2560) have two texts, each expanded the
    same way; they are not modelled here. *)
Record xfield := XField {
  xf_id : string;
  xf_view : string;
  xf_number_measure : bool;
  xf_sql : option string;
  xf_wrap : string -> string;
  xf_alias : string
}.
(** raw_sql_query gives a text, None or the list of references of a measure of type number *)
Inductive raw_result := RText (s : string) | RNone | RList.

(** re.sub(r"[ ]{2,}", " ", s) *)
Fixpoint collapse_aux (after_space : bool) (s : string) : string :=
  match s with
  | EmptyString => EmptyString
  | String c r => if Ascii.eqb c " " then if after_space then collapse_aux true r else String c (collapse_aux true r)
                  else String c (collapse_aux false r)
  end.
Definition collapse (s : string) : string := collapse_aux false s.

Section Expand.
  Variable get_field : string -> string -> res xfield.   (* get_field_with_view_info: the view, the reference *)

  Fixpoint substitute (value : string -> res raw_result) (view : string) (names : list string) (sql : string) : res string :=
    match names with
    | [] => Ok (strip sql)
    | n :: names =>
        if String.eqb n "TABLE" then substitute value view names (replace (placeholder "TABLE") view sql)
        else v <- value n ;;
             match v with
             | RList => Err QueryError
             | RNone => Err TypeError                    (* str.replace(.., None) *)
             | RText t => substitute value view names (replace (placeholder n) t sql)
             end
    end.
  (** the recursion raw_sql_query -> replace_fields -> raw_sql_query; fuel stands for Python's stack *)
  Fixpoint raw_sql_query (fuel : nat) (f : xfield) : res raw_result :=
    match fuel with
    | O => Err RecursionError
    | S fuel =>
        if xf_number_measure f then Ok RList
        else match xf_sql f with
             | None => Err QueryError
             | Some sql =>
                 if String.eqb sql "" then Err QueryError
                 else if contains "{%" sql then Ok RNone
                 else t <- substitute (fun n => g <- get_field (xf_view f) n ;; raw_sql_query fuel g) (xf_view f) (fields_to_replace sql) sql ;;
                      Ok (RText (xf_wrap f (collapse t)))
             end
    end.

  (** replace_fields with alias_only, where a reference is its alias; 2585-2586 *)
  Definition alias_value (f : xfield) (n : string) : res raw_result :=
    g <- get_field (xf_view f) n ;; Ok (if xf_number_measure g then RList else RText (xf_alias g)).
  Fixpoint substitute_alias (f : xfield) (names : list string) (sql : string) : res string :=
    match names with
    | [] => Ok (strip sql)
    | n :: names =>
        if String.eqb n "TABLE" then substitute_alias f names (replace (placeholder "TABLE" ++ ".")%string "" sql)
        else v <- alias_value f n ;;
             match v with RText t => substitute_alias f names (replace (placeholder n) t sql) | _ => Err QueryError end
    end.
End Expand.
