(** Dashboards and their elements, core/model/dashboard.py:20-185. *)
From Coq Require Import List String Bool ZArith QArith.
From Verif Require Import PyBase PyStr Filter_Model.
Import ListNotations.
Local Open Scope string_scope.
Local Open Scope list_scope.

(** A raw filter: its "field" and "value" keys, absent or present (the other keys play no part). *)
Record rawf := RawF { rw_field : option string; rw_value : option fval }.
(** The "metric"/"metrics" keys: absent, a text or a list *)
Inductive mval := MNull | MText (s : string) | MList (l : list string).
Record delement := DElement {
  de_model : option string;            (* the required key "model" *)
  de_metric : option mval;             (* key "metric" *)
  de_metrics : option mval;            (* key "metrics" *)
  de_slice : list string;
  de_filters : option (list rawf)
}.
Record dashboard := Dashboard { db_name : string; db_filters : option (list rawf); db_elements : list delement }.

(** 47-57; None is Python's None, which cannot be iterated over *)
Definition element_metrics (e : delement) : option (list string) :=
  let v := match de_metric e with Some v => v | None => match de_metrics e with Some v => v | None => MList [] end end in
  match v with MText s => Some [s] | MList l => Some l | MNull => None end.
Definition raw_filters (f : option (list rawf)) : list rawf := match f with Some l => l | None => [] end.

(** One parsed filter {**definition, **condition}: the condition is absent when the value is empty. The dictionary
    holds at least timezone and week_start_day, so it is never {} and the test of line 178 always holds. *)
Record pfilter := PFilter { pf_field : string; pf_value : fval; pf_cond : option cond; pf_week : option string; pf_tz : option string }.

Section WithProject.
  Variable num : string -> res Q.            (* pd.to_numeric, as in Filter_Model *)
  Variable now : option string -> Z.         (* today in a time zone *)
  Variable tz : option string.               (* project.timezone *)
  (** project.get_model(name).week_start_day; get_model raises when there is no such model (project.py:369-377) *)
  Variable model_week : string -> res (option string).
  Variable get_field : string -> res unit.   (* project.get_field *)

  (** Filter({**raw, week_start_day, timezone}).filter_dict(), filter.py:126-143: the keys of info replace the filter's
      own. An empty value gives {} and so the definition unchanged. *)
  Definition parse_one (g : globals) (week : option string) (r : rawf) : res (list pfilter) * globals :=
    match rw_field r, rw_value r with
    | Some f, Some v =>
        let '(x, g) := filter_dict num (now tz) g v week in
        (match x with
         | Err e => Err e
         | Ok cs => Ok (if String.eqb (py_str v) "" then [PFilter f v None week tz] else map (fun c => PFilter f v (Some c) week tz) cs)
         end, g)
    | _, _ => (Err QueryError, g)
    end.
  Fixpoint parse_all (g : globals) (week : option string) (l : list rawf) : res (list pfilter) :=
    match l with
    | [] => Ok []
    | r :: l => match parse_one g week r with
                | (Err e, _) => Err e
                | (Ok fs, g) => rest <- parse_all g week l ;; Ok (fs ++ rest)
                end
    end.
  (** DashboardElement.validate and get_model, 28-43 *)
  Definition element_week (e : delement) : res (option string) :=
    match de_model e with Some m => model_week m | None => Err QueryError end.
  (** 64-66 *)
  Definition element_filters (g : globals) (e : delement) : res (list pfilter) :=
    w <- element_week e ;; parse_all g w (raw_filters (de_filters e)).
  (** the value of a one element set *)
  Definition opt_eqb (a b : option string) : bool :=
    match a, b with Some x, Some y => String.eqb x y | None, None => true | _, _ => false end.
  Definition single (l : list (option string)) : option string :=
    match l with x :: r => if forallb (opt_eqb x) r then x else None | [] => None end.
  (** elements(), 182-184: constructing an element without a model raises *)
  Definition check_elements (l : list delement) : res unit :=
    if forallb (fun e => match de_model e with Some _ => true | None => false end) l then Ok tt else Err QueryError.
  (** 167-180 *)
  Definition dashboard_filters (g : globals) (d : dashboard) : res (list pfilter) :=
    _ <- check_elements (db_elements d) ;;
    ws <- mapM element_week (db_elements d) ;;
    parse_all g (single ws) (raw_filters (db_filters d)).

  (** ** The checks, 68-98 and 146-158. The errors are their messages. *)
  Definition found (f : option string) : bool :=
    match f with Some n => match get_field n with Ok _ => true | Err _ => false end | None => false end.
  Definition key_str (f : option string) : string := match f with Some n => n | None => "None" end.
  Definition missing (n d : string) : string := ("Could not find field " ++ n ++ " referenced in dashboard " ++ d)%string.
  Definition missing_filter (n d : string) : string := ("Could not find field " ++ n ++ " referenced in a filter in dashboard " ++ d)%string.
  Definition missing_model (text d : string) : string := (text ++ " in dashboard " ++ d)%string.
  (** the text of the exception raised for an unknown model, project.py:374 *)
  Definition model_text (m : string) : string := ("Could not find or you do not have access to model " ++ m)%string.
  Definition element_errors (d : string) (e : delement) : res (list string) :=
    model_errors <- match de_model e with
                    | None => Err QueryError
                    | Some m => match model_week m with
                                | Ok _ => Ok []
                                | Err AccessDenied => Ok [missing_model (model_text m) d]
                                | Err x => Err x
                                end
                    end ;;
    match element_metrics e with
    | None => Err TypeError
    | Some ms =>
        Ok (model_errors
            ++ flat_map (fun f => if found (Some f) then [] else [missing f d]) ms
            ++ flat_map (fun f => if found (Some f) then [] else [missing f d]) (de_slice e)
            ++ flat_map (fun r => if found (rw_field r) then [] else [missing_filter (key_str (rw_field r)) d]) (raw_filters (de_filters e)))
    end.
  (** 146-158: f["field"] in the handler raises again when the key is absent *)
  Fixpoint filter_errors (d : string) (l : list rawf) : res (list string) :=
    match l with
    | [] => Ok []
    | r :: l => match rw_field r with
                | None => Err KeyError
                | Some f => rest <- filter_errors d l ;; Ok ((if found (Some f) then [] else [missing_filter f d]) ++ rest)
                end
    end.
  Definition dashboard_errors (d : dashboard) : res (list string) :=
    es <- filter_errors (db_name d) (raw_filters (db_filters d)) ;;
    _ <- check_elements (db_elements d) ;;
    xs <- concatM (element_errors (db_name d)) (db_elements d) ;;
    Ok (es ++ xs).
End WithProject.
