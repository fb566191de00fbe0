(** When a field definition breaks a rule: specification of the checks of a field, stated on the definition
    alone.  [E] answers for the view and the project. *)
From Coq Require Import List String ZArith Bool.
From Verif Require Import PyBase PyStr PyRefs PyReplace PyList Names_Model Names_Props FieldCheck_Model.
Import ListNotations.
Local Open Scope string_scope.
Local Open Scope list_scope.

(** The key has a value with P; the key is missing *)
Definition value (d : ydict) (k : string) (P : yv -> Prop) : Prop := exists v, assoc k d = Some v /\ P v.
Definition lacks (d : ydict) (k : string) : Prop := assoc k d = None.
Definition Str (v : yv) : Prop := exists s, v = YStr s.
Definition Bool_ (v : yv) : Prop := exists b, v = YBool b.
Definition List_ (v : yv) : Prop := exists l, v = YList l.
Definition Dict (v : yv) : Prop := exists m, v = YDict m.
Definition Int (v : yv) : Prop := (exists z, v = YInt z) \/ (exists b, v = YBool b).
(** Not None, false, 0, 0.0 or empty *)
Definition Filled (v : yv) : Prop := ~ In v [YNull; YBool false; YInt 0; YFloat false; YStr ""; YList []; YDict []].
(** The value is one of these texts; the value is this text *)
Definition OneOf (l : list string) (v : yv) : Prop := exists s, v = YStr s /\ In s l.
Definition is_text (d : ydict) (k s : string) : Prop := assoc k d = Some (YStr s).
Definition element (d : ydict) (k : string) (v : yv) : Prop := exists l, assoc k d = Some (YList l) /\ In v l.

(** The options and keys of the documentation of the data model *)
Definition timeframe_names := ["raw"; "time"; "second"; "minute"; "hour"; "date"; "week"; "month"; "quarter"; "year"; "fiscal_month"; "fiscal_quarter"; "fiscal_year";
  "week_index"; "week_of_year"; "week_of_month"; "month_of_year"; "month_of_year_index"; "fiscal_month_index"; "fiscal_month_of_year_index"; "month_name"; "month_index";
  "quarter_of_year"; "fiscal_quarter_of_year"; "hour_of_day"; "day_of_week"; "day_of_month"; "day_of_year"].
Definition interval_names := ["second"; "minute"; "hour"; "day"; "week"; "month"; "quarter"; "year"].
Definition format_names :=
  map (fun i => ("decimal_" ++ i)%string) ["0"; "1"; "2"] ++ map (fun i => ("decimal_pct_" ++ i)%string) ["0"; "1"; "2"] ++ map (fun i => ("percent_" ++ i)%string) ["0"; "1"; "2"]
  ++ map (fun i => ("eur" ++ i)%string) [""; "_0"; "_1"; "_2"] ++ map (fun i => ("usd" ++ i)%string) [""; "_0"; "_1"; "_2"]
  ++ ["string"; "image_from_url"; "date"; "week"; "month"; "quarter"; "year"].
Definition aggregations := ["count"; "count_distinct"; "sum"; "sum_distinct"; "average"; "average_distinct"; "median"; "max"; "min"; "number"; "cumulative"].
Definition known_keys (ft : string) : list string :=
  ["name"; "field_type"; "type"; "label"; "group_label"; "description"; "zoe_description"; "hidden"; "value_format_name"; "synonyms";
   "required_access_grants"; "label_prefix"; "filters"; "sql"; "extra"; "is_personal_field"]
  ++ (if mem ft ["dimension"; "dimension_group"] then ["primary_key"; "tags"; "drill_fields"; "searchable"; "link"] else [])
  ++ (if mem ft ["dimension"; "measure"] then ["canon_date"] else [])
  ++ (if String.eqb ft "dimension" then ["tiers"; "case"] else [])
  ++ (if String.eqb ft "dimension_group" then ["timeframes"; "intervals"; "sql_start"; "sql_end"; "convert_tz"; "convert_timezone"; "datatype"] else [])
  ++ (if String.eqb ft "measure" then ["sql_distinct_key"; "non_additive_dimension"; "measure"; "is_merged_result"; "cumulative_where"; "update_where_timeframe"] else []).

Section Spec.
  Variable E : fenv.
  Variable n : string.                         (* the name of the field *)
  Definition full (s : string) : string := if contains "." s then s else (e_view E ++ "." ++ s)%string.
  Definition good_name : Prop := n <> "" /\ all_chars allowed n = true.

  (** Rules of every field *)
  Definition common_breaks (d : ydict) (r : rule) : Prop :=
    match r with
    | RName => ~ good_name
    | RReserved => good_name /\ In n (e_reserved E) /\ ~ is_text d "field_type" "dimension_group"
    | RFieldType => ~ value d "field_type" (OneOf ["dimension"; "dimension_group"; "measure"])
    | RNoType => lacks d "type"
    | RLabel => value d "label" (fun v => ~ Str v) /\ ~ value d "label_prefix" Filled
    | RGroupLabel => value d "group_label" (fun v => ~ Str v)
    | RHidden => value d "hidden" (fun v => ~ Bool_ v)
    | RDescription => value d "description" (fun v => ~ Str v)
    | RDescriptionLong => exists s, is_text d "description" s /\ 512 < String.length s
    | RZoe => value d "zoe_description" (fun v => ~ Str v)
    | RZoeLong => exists s, is_text d "zoe_description" s /\ 512 < String.length s
    | RValueFormat => value d "value_format_name" (fun v => ~ OneOf format_names v)
    | RSynonyms => value d "synonyms" (fun v => ~ List_ v)
    | RSynonym v => element d "synonyms" v /\ ~ Str v
    | RExtra => value d "extra" (fun v => ~ Dict v)
    | RGrants => value d "required_access_grants" (fun v => ~ List_ v)
    | RGrantType v => element d "required_access_grants" v /\ ~ Str v
    | RGrant g => element d "required_access_grants" (YStr g) /\ ~ In g (e_grants E)
    | RProperty k => In k (map fst d) /\ ~ In k (known_keys (ftype d))
    | _ => False
    end.

  (** Rules of filters; [filter_of d f]: f is one of the filters *)
  Definition filter_of (d f : ydict) : Prop := element d "filters" (YDict f).
  Definition filter_breaks (d : ydict) (r : rule) : Prop :=
    match r with
    | RFilters => value d "filters" (fun v => Filled v /\ ~ List_ v)
    | RFilter v => element d "filters" v /\ ~ Dict v
    | RFilterSelf => exists f s, filter_of d f /\ is_text f "field" s /\ full s = (e_view E ++ "." ++ n)%string
    | RFilterNoField => exists f, filter_of d f /\ lacks f "field"
    | RFilterField q => exists f s, filter_of d f /\ is_text f "field" s /\ q = full s /\ e_get_field E q = Err AccessDenied
    | RFilterNoValue => exists f, filter_of d f /\ lacks f "value"
    | RFilterValue v => exists f, filter_of d f /\ assoc "value" f = Some v /\ ~ Str v /\ (lacks f "field" \/ e_readable E (qualify_filter E f) = false)
    | RFilterKey k => exists f, filter_of d f /\ In k (map fst f) /\ k <> "field" /\ k <> "value"
    | _ => False
    end.

  (** Rules of the date of a field *)
  Definition canon_breaks (d : ydict) (r : rule) : Prop :=
    let named c := exists s, is_text d "canon_date" s /\ s <> "" /\ c = full (replace "}" "" (replace "${" "" s)) /\
                     c <> full (match e_default_date E with Some v => v | None => "None" end) in
    match r with
    | RCanonType => value d "canon_date" (fun v => Filled v /\ ~ Str v)
    | RCanonKind => exists c i, named c /\ e_by_name E c = Ok i /\ ~ (fi_ftype i = "dimension_group" /\ fi_type i = "time")
    | RCanonMissing => exists c, named c /\ (e_by_name E c = Err AccessDenied \/ e_by_name E c = Err QueryError)
    | _ => False
    end.

  (** A reference that does not exist, in a text or in the number fields it refers to *)
  Inductive dangles : string -> string -> string -> Prop :=
  | dangles_here view s r : In r (fields_to_replace s) -> r <> "TABLE" -> e_with_view E view r = Err AccessDenied -> dangles view s r
  | dangles_inside view s q i t r : In q (fields_to_replace s) -> q <> "TABLE" -> e_with_view E view q = Ok i -> fi_type i = "number" ->
      fi_sql i = Ok (Some t) -> contains "{%" t = false -> dangles (fi_view i) t r -> dangles view s r.
  (** A field that a text refers to, directly or through number fields *)
  Inductive reaches : string -> string -> finfo -> Prop :=
  | reaches_here view s r i : In r (fields_to_replace s) -> r <> "TABLE" -> e_with_view E view r = Ok i -> fi_type i <> "number" -> reaches view s i
  | reaches_inside view s q i t j : In q (fields_to_replace s) -> q <> "TABLE" -> e_with_view E view q = Ok i -> fi_type i = "number" ->
      fi_sql i = Ok (Some t) -> contains "{%" t = false -> reaches (fi_view i) t j -> reaches view s j.
  (** A merged result: declared as one, or a number whose measures have different dates *)
  Definition plain_measure (i : finfo) : Prop := fi_ftype i = "measure" /\ fi_type i <> "cumulative".
  Definition merged (d : ydict) : Prop :=
    value d "is_merged_result" Filled
    \/ lacks d "is_merged_result" /\ is_text d "type" "number" /\
       exists t i j, sql E n d = Ok (Some (YStr t)) /\ reaches (e_view E) t i /\ reaches (e_view E) t j /\
         plain_measure i /\ plain_measure j /\ fi_canon i <> fi_canon j.
  (** The texts whose references are checked *)
  Definition source (d : ydict) (t : string) : Prop :=
    ~ is_text d "type" "cumulative" /\
    let sides := is_text d "type" "duration" /\ value d "sql_start" Filled /\ value d "sql_end" Filled in
    (sides /\ (exists s, (is_text d "sql_start" s \/ is_text d "sql_end" s) /\ t = clean_case s)
     \/ ~ sides /\ sql E n d = Ok (Some (YStr t))).
  Definition looker (d : ydict) : Prop := exists t, sql E n d = Ok (Some (YStr t)) /\ contains "{%" t = true.
  (** Rules of a sql text s *)
  Definition sql_breaks (d : ydict) (s : string) (r : rule) : Prop :=
    match r with
    | RSelfRef => s = placeholder n
    | RLooker => looker d
    | RBadRef q => ~ looker d /\ exists t, source d t /\ dangles (e_view E) t q
    | _ => False
    end.
  Definition own_sql_breaks (d : ydict) (r : rule) : Prop := exists t, sql E n d = Ok (Some (YStr t)) /\ sql_breaks d t r.

  (** Rules of dimensions *)
  Definition dimension_breaks (d : ydict) (r : rule) : Prop :=
    match r with
    | RDimType => ~ value d "type" (OneOf ["string"; "yesno"; "number"; "tier"])
    | RSearchableMissing => is_text d "type" "string" /\ ~ value d "hidden" Filled /\ lacks d "searchable"
    | RPrimaryKey => value d "primary_key" (fun v => ~ Bool_ v)
    | RSql => ~ value d "sql" Str /\ lacks d "case"
    | RCase => ~ lacks d "case"
    | RSelfRef | RLooker | RBadRef _ => value d "sql" Str /\ lacks d "case" /\ own_sql_breaks d r
    | RTags => value d "tags" (fun v => ~ List_ v)
    | RTag v => element d "tags" v /\ ~ Str v
    | RDrill => value d "drill_fields" (fun v => ~ List_ v)
    | RDrillField f => exists x l ns, assoc "drill_fields" d = Some (YList (x :: l)) /\ e_drill E (x :: l) = Ok ns /\ In f ns /\ e_get_field E f = Err AccessDenied
    | RSearchable => value d "searchable" (fun v => ~ Bool_ v)
    | RTiersMissing => is_text d "type" "tier" /\ lacks d "tiers"
    | RTiers => is_text d "type" "tier" /\ value d "tiers" (fun v => ~ List_ v)
    | RTier v => is_text d "type" "tier" /\ element d "tiers" v /\ ~ Int v
    | RLink => value d "link" (fun v => ~ Str v)
    | _ => False
    end.
  (** Rules of dimension groups *)
  Definition group_breaks (d : ydict) (r : rule) : Prop :=
    let time := is_text d "type" "time" in let duration := is_text d "type" "duration" in
    match r with
    | RGroupType => ~ value d "type" (OneOf ["time"; "duration"])
    | RPrimaryKey => value d "primary_key" (fun v => ~ Bool_ v)
    | RTimeIntervals => time /\ ~ lacks d "intervals"
    | RTimeframes => time /\ value d "timeframes" (fun v => ~ List_ v)
    | RNoTimeframes => time /\ assoc "timeframes" d = Some (YList [])
    | RTimeframe v => time /\ element d "timeframes" v /\ ~ OneOf timeframe_names v
    | RTimeSql => time /\ value d "sql" (fun v => ~ Str v)
    | RConvertTz => time /\ value d "convert_tz" (fun v => ~ Bool_ v)
    | RConvertTimezone => time /\ value d "convert_timezone" (fun v => ~ Bool_ v)
    | RDatatype => time /\ value d "datatype" (fun v => ~ OneOf ["timestamp"; "date"; "datetime"] v)
    | RDurTimeframes => duration /\ ~ lacks d "timeframes"
    | RIntervals => duration /\ value d "intervals" (fun v => ~ List_ v)
    | RNoIntervals => duration /\ assoc "intervals" d = Some (YList [])
    | RInterval v => duration /\ element d "intervals" v /\ ~ OneOf interval_names v
    | RDurSql => duration /\ ~ lacks d "sql"
    | RSqlStart => duration /\ ~ value d "sql_start" Str
    | RSqlEnd => duration /\ ~ value d "sql_end" Str
    | RSelfRef | RLooker | RBadRef _ =>
        (time /\ value d "sql" Str /\ own_sql_breaks d r)
        \/ (duration /\ exists s, (is_text d "sql_start" s \/ is_text d "sql_end" s) /\ sql_breaks d (clean_case s) r)
    | _ => False
    end.
  (** Rules of measures *)
  Definition measure_breaks (d : ydict) (r : rule) : Prop :=
    let cumulative := is_text d "type" "cumulative" in
    let dateless := ~ value d "canon_date" Filled /\ e_default_date E = None in
    let window m := assoc "non_additive_dimension" d = Some (YDict m) /\ m <> [] in
    let asked q := q <> "TABLE" /\ exists s, is_text d "sql_distinct_key" s /\ In q (fields_to_replace s) in
    match r with
    | RMeasureType => ~ value d "type" (OneOf aggregations)
    | RMeasureKey => ~ lacks d "primary_key"
    | RNoDate b => dateless /\ (b = true <-> merged d)
    | RNoSql => lacks d "sql" /\ ~ cumulative
    | RMeasureSql => value d "sql" (fun v => ~ Str v) /\ ~ cumulative
    | RSelfRef | RLooker | RBadRef _ => value d "sql" Str /\ ~ cumulative /\ own_sql_breaks d r
    | RMergedResult => value d "is_merged_result" (fun v => ~ Bool_ v)
    | RCumNoMeasure => cumulative /\ lacks d "measure"
    | RCumMeasureType => cumulative /\ value d "measure" (fun v => ~ Str v)
    | RCumNotMeasure => cumulative /\ exists s i, is_text d "measure" s /\ s <> "" /\ e_with_view E (e_view E) s = Ok i /\ fi_ftype i <> "measure"
    | RCumUnreachable => cumulative /\ (~ value d "measure" Filled \/ exists s, is_text d "measure" s /\ s <> "" /\ (e_with_view E (e_view E) s = Err AccessDenied \/ e_with_view E (e_view E) s = Err QueryError))
    | RCumWhere => cumulative /\ value d "cumulative_where" (fun v => ~ Str v)
    | RUpdateWhere => cumulative /\ value d "update_where_timeframe" (fun v => ~ Bool_ v)
    | RNoDistinctKey => value d "type" (OneOf ["sum_distinct"; "average_distinct"]) /\ ~ value d "sql_distinct_key" Filled
    | RDistinctKey => value d "sql_distinct_key" (fun v => Filled v /\ ~ Str v)
    | RDistinctRef q => asked q /\ e_with_view E (e_view E) q = Err AccessDenied
    | RNad => value d "non_additive_dimension" (fun v => ~ Dict v)
    | RNadName => assoc "non_additive_dimension" d = Some (YDict [])
    | RNadKind => exists m s i, window m /\ is_text m "name" s /\ e_with_view E (e_view E) (full s) = Ok i /\ ~ (fi_ftype i = "dimension_group" /\ fi_type i = "time")
    | RNadMissing => exists m s, window m /\ is_text m "name" s /\ e_with_view E (e_view E) (full s) = Err AccessDenied
    | RWindow => exists m, window m /\ value m "window_choice" (fun v => ~ OneOf ["max"; "min"] v)
    | RWindowAware => exists m, window m /\ value m "window_aware_of_query_dimensions" (fun v => ~ Bool_ v)
    | RNullsEqual => exists m, window m /\ value m "nulls_are_equal" (fun v => ~ Bool_ v)
    | RGroupings => exists m, window m /\ value m "window_groupings" (fun v => ~ List_ v)
    | RGroupingKind g => exists m s i, window m /\ element m "window_groupings" (YStr s) /\ g = full s /\ e_with_view E (e_view E) g = Ok i /\ ~ In (fi_ftype i) ["dimension"; "dimension_group"]
    | RGroupingMissing g => exists m s, window m /\ element m "window_groupings" (YStr s) /\ g = full s /\ e_with_view E (e_view E) g = Err AccessDenied
    | RNadKey k => exists m, window m /\ In k (map fst m) /\ ~ In k ["name"; "window_choice"; "window_aware_of_query_dimensions"; "nulls_are_equal"; "window_groupings"]
    | _ => False
    end.
End Spec.
