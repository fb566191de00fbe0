(** The same grouped query asked by two users: what of Query_Model.v depends on the user. The fields are those project.get_field
    finds for the user (core/model/project.py:500-576, Core_Model.v); the primary key of a view is the first of the fields the user
    may see that is marked so (core/model/view.py:193-195); a count without sql counts the key of its view, or everything when the
    user sees none (core/model/field.py:250-262); the joins are those among the views the user may see (join_graph.py:141-191);
    the access filters take the values of the user (core/sql/query_design.py:262-288). Everything else is Query_Model.v.
    Caches are left out: each user has a project object of their own (C05, C41 follow the caches). *)
From Coq Require Import List String Ascii Bool.
From Verif Require Import PyBase PyStr Core_Model AccessFilter_Model JoinGraph_Model JoinOrder_Model Rel_Model Agg_Model Clause_Model Query_Model.
Import ListNotations.
Local Open Scope string_scope.
Local Open Scope list_scope.

(** What the definition of a field says besides its name: its kind, its own sql after substitution (None: no sql), the references of
    that sql written view.field, and the sql of its distinct key. The substitution of references is C39. *)
Record content := Content { di_body : body; di_sql : option string; di_refs : list string; di_dk : string }.

Section User.
  Context {V C : Type}.
  Variable info : field_obj -> content.
  Variable ids : string -> list jident.                    (* the identifiers of a view *)
  Variable w : warehouse.
  Variable topo : list vpair -> option (list vpair).
  Variable sp : graph -> string -> string -> option (list string).
  Variable as_list : list string -> list string.
  Variable valid : qfield -> V -> res unit.
  Variable compare : qfield -> V -> res (list C).
  Variable cond : field_obj -> string -> res (list C).     (* the conditions of an access filter on a field, for a value *)
  Variable fuel : nat.
  Variable p : project.                                    (* with its user *)

  (** View.primary_key, view.py:193-195 *)
  Definition primary_key (vn : string) : option field_obj :=
    match get_view p vn with
    | Ok v => match view_fields p v true true with Ok l => List.find (fun f => fd_pk (fo_def f)) l | Err _ => None end
    | Err _ => None
    end.
  Definition text_of (f : field_obj) : string := match di_sql (info f) with Some s => s | None => "" end.
  (** Field.sql for a count without sql, field.py:254-262; the text and its references *)
  Definition text_and_refs (f : field_obj) : string * list string :=
    match di_sql (info f) with
    | Some s => (s, di_refs (info f))
    | None => match di_body (info f), primary_key (fo_view f) with
              | BAgg TCount _, Some k => (text_of k, di_refs (info k))
              | BAgg TCount _, None => ("*", [])
              | _, _ => ("", [])
              end
    end.
  Definition as_qfield (f : field_obj) : qfield :=
    QField (fo_view f) (alias f) (di_body (info f)) (fst (text_and_refs f)) (snd (text_and_refs f))
      (match primary_key (fo_view f) with Some k => text_of k | None => "" end) (di_dk (info f)).
  Definition field_for (n : string) : res qfield := f <- get_field p n None ;; Ok (as_qfield f).
  Definition key_for (vn : string) : option string := option_map alias (primary_key vn).
  (** project.views(), as the join graph reads them *)
  Definition gviews_for : res (list gview) := vs <- views p true ;; Ok (map (fun v => GView (vd_name v) (ids (vd_name v))) vs).
  (** query_design.py:262-284, for one view *)
  Definition access_for (vn : string) : res (list (string * list C)) :=
    v <- get_view p vn ;;
    concatM (fun af => f <- get_field p (fst af) None ;;
                       match user_value p (snd af) with Some x => cs <- cond f x ;; Ok [(fst af, cs)] | None => Ok [] end) (vd_access_filters v).
  (** the query of this user *)
  Definition query_for (r : request V C) : res (qsql C) :=
    vs <- gviews_for ;;
    g <- build vs ;;
    generate field_for w key_for g (composite_keys vs) topo (sp g) as_list valid compare access_for fuel r.
End User.
