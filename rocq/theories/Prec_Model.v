(** Where the texts of fields are put inside other texts, and with or without brackets around them
    (core/model/field.py:496-557, 584-595, 707-716, 742-748, 775-816, 2550-2603; core/model/filter.py:487-583;
    core/sql/query_filter.py:195-212, 247-273).
    A text is a list of tokens here, with the references in it already found (what reference a [${...}] is and in
    what order references are replaced is modelled in PyRefs.v and Subst_Model.v; here they are replaced at once, and
    [${TABLE}] is part of the atom it stands in).  The symmetric forms of the aggregates
    are not modelled here, timeframes are in PrecTime_Model, durations in PrecDuration_Props. *)
From Coq Require Import List String Bool Arith.
From Verif Require Import PyBase.
Import ListNotations.
Local Open Scope string_scope.
Local Open Scope list_scope.

(** Binary operators of SQL; the comparisons include LIKE, IN, IS and their negations *)
Inductive op := OOr | OAnd | OCmp (s : string) | OAdd (s : string) | OMul (s : string).
(** [TCall f] is the text "f(", [TCase], [TThen] and [TEnd] are "case when", "then" and "end" *)
Inductive tok :=
  | TAtom (s : string) | TRef (x : string) | TOp (o : op) | TNot | TOpen | TClose | TCall (f : string)
  | TCase | TThen | TEnd.

(** A field: a dimension, a measure that is one aggregate (the functions around its sql, outermost first) or a
    measure of type number *)
Inductive kind := KDim | KAgg (fs : list string) | KNumber.
Record fdef := Fdef { f_kind : kind; f_sql : list tok; f_alias : string }.

(** The functions around the sql of an aggregate, field.py:584-595, 707-716, 742-748, 775-797: SUM(..), COUNT(..),
    COUNT(DISTINCT(..)), AVG(..), MEDIAN(..), MAX(..), MIN(..) *)
Definition calls (fs : list string) (ts : list tok) : list tok :=
  fold_right (fun f t => TCall f :: t ++ [TClose]) ts fs.

(** Each reference in a text replaced by a text *)
Definition subst_refs (value : string -> res (list tok)) (ts : list tok) : res (list tok) :=
  concatM (fun t => match t with TRef x => value x | _ => Ok [t] end) ts.

Section Texts.
  Variable p : string -> option fdef.              (* get_field_with_view_info *)

  (** raw_sql_query, get_replaced_sql_query and replace_fields (field.py:510-515, 2550-2555, 2572-2603): the text of a
      field is put in place of a reference to it as it is; a measure of type number gives a list, which is refused *)
  Fixpoint raw_text (fuel : nat) (x : string) : res (list tok) :=
    match fuel with
    | O => Err RecursionError
    | S fuel =>
        match p x with
        | None => Err AccessDenied
        | Some d =>
            match f_kind d with
            | KNumber => Err QueryError
            | _ => subst_refs (raw_text fuel) (f_sql d)
            end
        end
    end.
  (** _number_aggregate_sql, field.py:799-816: brackets around what replaces a reference *)
  Definition bracket (t : list tok) : list tok := TOpen :: t ++ [TClose].
  (** sql_query and aggregate_sql_query, field.py:496-536 *)
  Fixpoint full_text (fuel : nat) (x : string) : res (list tok) :=
    match fuel with
    | O => Err RecursionError
    | S n =>
        match p x with
        | None => Err AccessDenied
        | Some d =>
            match f_kind d with
            | KDim => raw_text fuel x
            | KAgg fs => t <- raw_text fuel x ;; Ok (calls fs t)
            | KNumber => subst_refs (fun y => t <- full_text n y ;; Ok (bracket t)) (f_sql d)
            end
        end
    end.
  (** strict_replaced_query, field.py:538-557: a reference to a measure of type number is replaced by its text in
      brackets, one to another field by that field's alias (merged results are of type number here) *)
  Fixpoint strict_text (fuel : nat) (x : string) : res (list tok) :=
    match fuel with
    | O => Err RecursionError
    | S n =>
        match p x with
        | None => Err AccessDenied
        | Some d =>
            subst_refs (fun y =>
                          match p y with
                          | None => Err AccessDenied
                          | Some g =>
                              match f_kind g with
                              | KNumber => t <- strict_text n y ;; Ok (bracket t)
                              | _ => Ok [TAtom (f_alias g)]
                              end
                          end) (f_sql d)
        end
    end.
  (** get_replaced_sql_on, join.py:177-204, for references that name a view and a field that exist: the whole text of the
      field is put in place of the reference, as it is *)
  Definition on_text (fuel : nat) (sql : list tok) : res (list tok) := subst_refs (full_text fuel) sql.
End Texts.
(** The condition of a join on a shared identifier, join_graph.py:346-368: a clause is the sql of the identifier (its references
    made to name their view) or a reference to the field of its name; the two are put around "=" as they are *)
Definition identifier_clause (sql : option (list tok)) (field : string) : list tok :=
  match sql with Some t => t | None => [TRef field] end.
Definition identifier_on (first second : list tok) : list tok := first ++ TOp (OCmp "=") :: second.


(** The conditions of Filter.sql_query (filter.py:531-583) as they are printed: a comparison with a value (isnull,
    isin and their negations included), one of the lower-cased forms, the field itself, or NOT the field *)
Inductive cond := CCmp (o v : string) | CLower (o v : string) | CTrue | CFalse.
Definition cond_text (c : cond) (ts : list tok) : list tok :=
  match c with
  | CCmp o v => ts ++ [TOp (OCmp o); TAtom v]
  | CLower o v => TCall "LOWER" :: ts ++ [TClose; TOp (OCmp o); TCall "LOWER"; TAtom v; TClose]
  | CTrue => ts
  | CFalse => TNot :: ts
  end.
(** Conditions joined by "and": Criterion.all over comparisons and literals, and filter.py:521-522 *)
Fixpoint and_all (first : list tok) (rest : list (list tok)) : list tok :=
  match rest with
  | [] => first
  | t :: rest => and_all (first ++ TOp OAnd :: t) rest
  end.
Definition conds_text (l : list (cond * list tok)) : list tok :=
  match l with
  | [] => []
  | (c, t) :: r => and_all (cond_text c t) (map (fun ct => cond_text (fst ct) (snd ct)) r)
  end.
(** translate_looker_filters_to_sql, filter.py:487-529 *)
Definition filtered (conds : list (cond * string)) (sql : list tok) : list tok :=
  TCase :: conds_text (map (fun cx => (fst cx, [TRef (snd cx)])) conds) ++ TThen :: sql ++ [TEnd].
