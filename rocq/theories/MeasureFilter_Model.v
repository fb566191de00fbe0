(** Filters of a measure: Filter.translate_looker_filters_to_sql (core/model/filter.py:486-529), its use in
    Field.sql (core/model/field.py:262-301) and in _get_sql_distinct_key (575-582).
    [C] are printed conditions, [conditions f v] those of one filter with both keys (Filter._filter_dict and
    Filter.sql_query, see Filter_Model).  The surrounding CASE is kept as a record instead of text. *)
From Verif Require Import PyBase PyStr.
Local Open Scope string_scope.
Local Open Scope list_scope.

Section MeasureFilter.
  Variables C V : Type.
  Variable conditions : string -> V -> res (list C).

  (** A filter dict: either key may be missing *)
  Record mfilter := MFilter { mf_field : option string; mf_value : option V }.

  (** "case when c1 and c2 ... then sql [else 0] end" *)
  Record mcase := MCase { mc_conds : list C; mc_sql : string; mc_else_0 : bool }.

  Definition filter_conditions (f : mfilter) : res (list C) :=
    match mf_field f, mf_value f with
    | Some fld, Some v => conditions fld v
    | _, _ => Ok []
    end.
  Definition translate (sql : string) (fs : list mfilter) (else_0 : bool) : res mcase :=
    cs <- concatM filter_conditions fs ;; Ok (MCase cs sql else_0).

  (** field.get("field") != self.name, 276 *)
  Definition other_field (name : string) (f : mfilter) : bool :=
    match mf_field f with Some x => negb (String.eqb x name) | None => true end.

  (** The body of the property Field.sql for a measure, 262-301.  [extra]: the conditions of a non additive
      dimension and its window groupings (283-297), None when the measure has no non additive dimension.
      [counting]: type count or count_distinct (282).  The result is the plain sql or a CASE. *)
  Definition sql_body (name sql : string) (counting : bool) (fs : list mfilter) (extra : option (list mfilter)) : res (string + mcase) :=
    match fs, extra with
    | [], None => Ok (inl sql)
    | _, _ =>
        if String.eqb sql "*" then Err QueryError
        else
          let to_apply := filter (other_field name) fs ++ match extra with Some e => e | None => [] end in
          let else_0 := match extra with Some _ => negb counting | None => false end in
          c <- translate sql to_apply else_0 ;; Ok (inr c)
    end.
  (** Field.sql as its readers see it.  [raw] is the sql of the definition and [default] the primary key or
      "*" of a count without sql (253-261).  A property whose body raises AttributeError is looked up again with
      MetricsLayerBase.__getattr__ (base.py:14-15), which gives the sql of the definition; without one the
      readers get None and get_replaced_sql_query raises QueryError (2570). *)
  Definition measure_sql (name : string) (raw : option string) (default : string) (counting : bool) (fs : list mfilter) (extra : option (list mfilter)) : res (string + mcase) :=
    match sql_body name (match raw with Some s => s | None => default end) counting fs extra with
    | Err AttributeError => match raw with Some s => Ok (inl s) | None => Err QueryError end
    | r => r
    end.
  (** _get_sql_distinct_key, 575-582 *)
  Definition distinct_key (key : string) (fs : list mfilter) : res (string + mcase) :=
    match fs with
    | [] => Ok (inl key)
    | _ => c <- translate key fs false ;; Ok (inr c)
    end.
End MeasureFilter.
Arguments MFilter {V}. Arguments mf_field {V}. Arguments mf_value {V}.
Arguments MCase {C}. Arguments mc_conds {C}. Arguments mc_sql {C}. Arguments mc_else_0 {C}.
Arguments translate {C V}. Arguments sql_body {C V}. Arguments measure_sql {C V}. Arguments distinct_key {C V}. Arguments other_field {V}. Arguments filter_conditions {C V}.
