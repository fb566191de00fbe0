(** The places where text is made from a Python set of texts, whose listing order changes from process to process.
    The larger ones are modelled where they belong, with the listing as a parameter: the date of a mapped name
    (Mapping_Model), the sets of fields (Set_Model), the model of a query (Dispatch_Model), the joins (JoinOrder_Model),
    the access filters (AccessFilter_Model).  Here are the small ones. *)
From Coq Require Import List String Ascii Bool Arith.
From Verif Require Import PyBase PyStr PySort.
Import ListNotations.
Local Open Scope string_scope.
Local Open Scope list_scope.
Local Open Scope nat_scope.

Section Process.
  Variable enum : list string -> list string.   (* list(set(...)) *)
  (** list.index; only asked for elements *)
  Fixpoint place (x : string) (l : list string) : nat :=
    match l with [] => 0 | y :: r => if String.eqb x y then 0 else S (place x r) end.
  (** sorted(set(l), key=l.index): core/sql/query_generator.py:209-211, core/sql/merged_query_resolve.py:257, 272 and 399 *)
  Definition restored (l : list string) : list string := isort (fun x y => Nat.leb (place x l) (place y l)) (enum l).
  (** sorted(set(l)): core/model/field.py:139 and 2521 with query_generator.py:320, core/sql/merged_query_resolve.py:351,
      core/model/join_graph.py:95 *)
  Definition alphabetical (l : list string) : list string := sort_str (enum l).
  (** timezone, core/model/project.py:115-126: the timezones of the models that have one *)
  Definition project_timezone (own : option string) (ms : list string) : res (option string) :=
    match own with
    | Some (String _ _ as z) => Ok (Some z)
    | _ => match enum ms with [] => Ok None | [z] => Ok (Some z) | _ => Err QueryError end
    end.
  (** get_funnel_base, core/sql/query_funnel.py:132-133: the metrics of the result *)
  Definition funnel_metrics (ms having : list string) : list string := ms ++ enum having.
  (** _subquery, 225-227: the metrics and dimensions of the rows read; [steps] are the fields of the steps, 152-155 *)
  Definition funnel_base (ms having dims steps keys : list string) : list string * list string :=
    (sort_str (funnel_metrics ms having), sort_str ((dims ++ enum steps) ++ keys)).
  (** The names in the message about duplicate fields, core/model/view.py:613-622 *)
  Definition repeated (names : list string) : list string := filter (fun x => Nat.ltb 1 (List.length (filter (String.eqb x) names))) names.
  Definition duplicate_message (view : string) (names : list string) : string :=
    ("Duplicate field names in view " ++ view ++ ": " ++ join_with ", " (enum (repeated names)))%string.
End Process.
