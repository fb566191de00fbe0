(** Field.collect_errors and collect_sql_errors, core/model/field.py:1481-2503, with the properties they read
    (182-470) and collect_field_filter_errors (2701-2740).
    A definition is a YAML mapping.  An error is kept as the rule it reports and the number of times its
    message says "Warning:"; the text of the message and the position in the file are left out. *)
From Coq Require Import List String ZArith Bool.
From Verif Require Import PyBase PyStr PyRefs PyReplace Names_Model.
Import ListNotations.
Local Open Scope string_scope.
Local Open Scope list_scope.

(** YAML values; [YFloat b] is a float, [b] says whether it is not zero. *)
Inductive yv := YNull | YBool (b : bool) | YInt (z : Z) | YFloat (b : bool) | YStr (s : string) | YList (l : list yv) | YDict (d : list (string * yv)).
Notation ydict := (list (string * yv)).
Definition truthy (v : yv) : bool :=
  match v with
  | YNull => false | YBool b => b | YInt z => negb (Z.eqb z 0) | YFloat b => b
  | YStr s => negb (String.eqb s "") | YList l => match l with [] => false | _ => true end | YDict d => match d with [] => false | _ => true end
  end.
Definition get (k : string) (d : ydict) : option yv := assoc k d.
Definition has (k : string) (d : ydict) : bool := match get k d with Some _ => true | None => false end.
Definition on (k : string) (d : ydict) : bool := match get k d with Some v => truthy v | None => false end.
Definition is_str (v : yv) : bool := match v with YStr _ => true | _ => false end.
Definition is_bool (v : yv) : bool := match v with YBool _ => true | _ => false end.
Definition is_list (v : yv) : bool := match v with YList _ => true | _ => false end.
Definition is_dict (v : yv) : bool := match v with YDict _ => true | _ => false end.
(** isinstance(v, int): a boolean is an integer *)
Definition is_int (v : yv) : bool := match v with YInt _ | YBool _ => true | _ => false end.
(** v == s and str(v) in l, for texts that no other value prints as *)
Definition eq_str (v : option yv) (s : string) : bool := match v with Some (YStr t) => String.eqb t s | _ => false end.
Definition str_in (v : option yv) (l : list string) : bool := match v with Some (YStr t) => mem t l | _ => false end.
(** The key is there and its value is not of the wanted type *)
Definition bad (k : string) (p : yv -> bool) (d : ydict) : bool := match get k d with Some v => negb (p v) | None => false end.

(** What an error says *)
Inductive rule :=
| RName | RReserved | RFieldType | RNoType | RLabel | RGroupLabel | RHidden | RDescription | RDescriptionLong | RZoe | RZoeLong | RValueFormat
| RSynonyms | RSynonym (v : yv)
| RFilters | RFilter (v : yv) | RFilterSelf | RFilterNoField | RFilterField (f : string) | RFilterNoValue | RFilterValue (v : yv) | RFilterKey (k : string)
| RExtra | RGrants | RGrantType (v : yv) | RGrant (g : string)
| RCanonType | RCanonKind | RCanonMissing
| RDimType | RSearchableMissing | RPrimaryKey | RSql | RCase | RSelfRef | RLooker | RBadRef (r : string)
| RTags | RTag (v : yv) | RDrill | RDrillField (f : string) | RSearchable | RTiersMissing | RTiers | RTier (v : yv) | RLink
| RGroupType | RTimeIntervals | RTimeframes | RNoTimeframes | RTimeframe (v : yv) | RTimeSql | RConvertTz | RConvertTimezone | RDatatype
| RDurTimeframes | RIntervals | RNoIntervals | RInterval (v : yv) | RDurSql | RSqlStart | RSqlEnd
| RMeasureType | RMeasureKey | RNoDate (merged : bool) | RNoSql | RMeasureSql | RMergedResult
| RCumNoMeasure | RCumMeasureType | RCumNotMeasure | RCumUnreachable | RCumWhere | RUpdateWhere
| RNoDistinctKey | RDistinctKey | RDistinctRef (r : string)
| RNad | RNadName | RNadKind | RNadMissing | RWindow | RWindowAware | RNullsEqual | RGroupings | RGroupingKind (g : string) | RGroupingMissing (g : string) | RNadKey (k : string)
| RProperty (k : string).
Definition chk (b : bool) (r : rule) : list rule := if b then [r] else [].

(** field.py:20-52, 53-80 and 91-139 *)
Definition VALID_TIMEFRAMES := ["raw"; "time"; "second"; "minute"; "hour"; "date"; "week"; "month"; "quarter"; "year"; "fiscal_month"; "fiscal_quarter"; "fiscal_year";
  "week_index"; "week_of_year"; "week_of_month"; "month_of_year"; "month_of_year_index"; "fiscal_month_index"; "fiscal_month_of_year_index"; "month_name"; "month_index";
  "quarter_of_year"; "fiscal_quarter_of_year"; "hour_of_day"; "day_of_week"; "day_of_month"; "day_of_year"].
Definition VALID_INTERVALS := ["second"; "minute"; "hour"; "day"; "week"; "month"; "quarter"; "year"].
Definition VALID_VALUE_FORMAT_NAMES := ["decimal_0"; "decimal_1"; "decimal_2"; "decimal_pct_0"; "decimal_pct_1"; "decimal_pct_2"; "percent_0"; "percent_1"; "percent_2";
  "eur"; "eur_0"; "eur_1"; "eur_2"; "usd"; "usd_0"; "usd_1"; "usd_2"; "string"; "image_from_url"; "date"; "week"; "month"; "quarter"; "year"].
Definition field_type_options := ["dimension"; "dimension_group"; "measure"].
Definition datatype_options := ["timestamp"; "date"; "datetime"].
Definition dimension_options := ["string"; "yesno"; "number"; "tier"].
Definition dimension_group_options := ["time"; "duration"].
Definition measure_options := ["count"; "count_distinct"; "sum"; "sum_distinct"; "average"; "average_distinct"; "median"; "max"; "min"; "number"; "cumulative"].
Definition requires_sql_distinct_key := ["sum_distinct"; "average_distinct"].
Definition description_max_chars : nat := 512.
(** valid_properties and internal_properties, 143 and 181-240 *)
Definition shared_properties := ["name"; "field_type"; "type"; "label"; "group_label"; "description"; "zoe_description"; "hidden"; "value_format_name"; "synonyms";
  "required_access_grants"; "label_prefix"; "filters"; "sql"; "extra"].
Definition valid_properties (ft : string) : list string :=
  (shared_properties ++
  if String.eqb ft "dimension" then ["primary_key"; "tags"; "drill_fields"; "searchable"; "tiers"; "link"; "canon_date"; "case"]
  else if String.eqb ft "dimension_group" then ["primary_key"; "searchable"; "tags"; "drill_fields"; "timeframes"; "intervals"; "sql_start"; "sql_end"; "convert_tz"; "convert_timezone"; "datatype"; "link"]
  else if String.eqb ft "measure" then ["sql_distinct_key"; "non_additive_dimension"; "canon_date"; "measure"; "is_merged_result"; "cumulative_where"; "update_where_timeframe"]
  else []) ++ ["is_personal_field"].

(** A field that was found: its view, kind, type, canon_date and the value of its property sql *)
Record finfo := FInfo { fi_view : string; fi_ftype : string; fi_type : string; fi_canon : option string; fi_sql : res (option string) }.

(** What the check asks of the view and the project *)
Record fenv := FEnv {
  e_view : string;                                           (* self.view.name *)
  e_default_date : option string;                            (* self.view.default_date, None when empty *)
  e_reserved : list string;                                  (* self.view.model.special_mapping_values *)
  e_grants : list string;                                    (* the names get_access_grant finds *)
  e_get_field : string -> res finfo;                         (* project.get_field(name) *)
  e_by_name : string -> res finfo;                           (* project.get_field_by_name(name) *)
  e_with_view : string -> string -> res finfo;               (* get_field_with_view_info of a field of that view *)
  e_drill : list yv -> res (list string);                    (* Set(drill_fields).field_names() *)
  e_readable : ydict -> bool;                                (* Filter(f).filter_dict() does not raise *)
  e_case : yv -> res string;                                 (* _translate_looker_case_to_sql *)
  e_count_sql : res string;                                  (* sql of the primary key, or "*" *)
  e_translate : yv -> list ydict -> option ydict -> res string; (* Filter.translate_looker_filters_to_sql: sql, filters, non additive dimension *)
  e_tier : yv -> list yv -> string;                          (* _translate_looker_tier_to_sql for a non empty list *)
  e_paren : yv -> string                                     (* str(sql), inside the brackets of a yesno *)
}.

Section Check.
  Variable E : fenv.
  Variable fuel : nat.                                       (* nesting of number fields before Python's recursion limit *)

  (** field_type, 352-353; other values than texts print as something that is not an option *)
  Definition ftype (d : ydict) : string := match get "field_type" d with Some (YStr s) => s | _ => "?" end.
  Definition ytype (d : ydict) : option yv := get "type" d.

  (** label, 330-349: with a prefix every label becomes a text *)
  Definition label_bad (d : ydict) : bool := bad "label" is_str d && negb (on "label_prefix" d).
  (** filters, 363-367 *)
  Definition filters (d : ydict) : yv := if on "filters" d then match get "filters" d with Some v => v | None => YList [] end else YList [].
  Definition too_long (k : string) (d : ydict) : bool :=
    match get k d with Some (YStr s) => Nat.ltb description_max_chars (String.length s) | _ => false end.
  Definition elements (p : yv -> bool) (r : yv -> rule) (l : list yv) : list rule := flat_map (fun v => chk (negb (p v)) (r v)) l.
  Definition listed (k : string) (top : rule) (p : yv -> bool) (r : yv -> rule) (d : ydict) : list rule :=
    match get k d with
    | None => []
    | Some (YList l) => elements p r l
    | Some _ => [top]
    end.

  (** 1669-1670: a filter on a field without view gets the view of the field, in the definition itself *)
  Definition qualify (s : string) : string := if contains "." s then s else (e_view E ++ "." ++ s)%string.
  Fixpoint set_key (k : string) (v : yv) (d : ydict) : ydict :=
    match d with [] => [(k, v)] | (k', v') :: r => if String.eqb k k' then (k', v) :: r else (k', v') :: set_key k v r end.
  Definition qualify_filter (f : ydict) : ydict :=
    match get "field" f with Some (YStr s) => set_key "field" (YStr (qualify s)) f | _ => f end.
  Definition qualify_filters (d : ydict) : ydict :=
    match filters d with
    | YList l => if has "filters" d && match l with [] => false | _ => true end
                 then set_key "filters" (YList (map (fun v => match v with YDict f => YDict (qualify_filter f) | _ => v end) l)) d else d
    | _ => d
    end.
  (** collect_field_filter_errors, 2701-2740, and invalid_property_error with ["field", "value"] *)
  Definition filter_errors (name : string) (f : ydict) : res (list rule) :=
    let own := match get "field" f with Some (YStr s) => String.eqb s (e_view E ++ "." ++ name)%string | _ => false end in
    a <- match get "field" f with
         | None => Ok [RFilterNoField]
         | Some (YStr s) => match e_get_field E s with Ok _ => Ok [] | Err AccessDenied => Ok [RFilterField s] | Err e => Err e end
         | Some _ => Err TypeError
         end ;;
    let b := match get "value" f with
             | None => [RFilterNoValue]
             | Some (YStr _) => []
             | Some v => chk (negb (has "field" f && e_readable E f)) (RFilterValue v)
             end in
    Ok (chk own RFilterSelf ++ a ++ b ++ map RFilterKey (List.filter (fun k => negb (mem k ["field"; "value"])) (map fst f))).
  (** 1639-1696 *)
  Definition filters_errors (name : string) (d : ydict) : res (list rule) :=
    if has "filters" d then
      match filters d with
      | YList l => concatM (fun v => match v with YDict f => filter_errors name (qualify_filter f) | _ => Ok [RFilter v] end) l
      | _ => Ok [RFilters]
      end
    else Ok [].

  (** View.collect_required_access_grant_errors, view.py:632-676 *)
  Definition grants_errors (d : ydict) : list rule :=
    match get "required_access_grants" d with
    | None => []
    | Some (YList l) => flat_map (fun v => match v with YStr g => chk (negb (mem g (e_grants E))) (RGrant g) | _ => [RGrantType v] end) l
    | Some _ => [RGrants]
    end.

  (** canon_date, 434-441; a value without replace() raises AttributeError inside the property, and
      MetricsLayerBase.__getattr__ then gives the value of the definition *)
  Definition canon_date (d : ydict) : option yv :=
    match get "canon_date" d with
    | Some (YStr s) => if String.eqb s "" then option_map (fun v => YStr (qualify v)) (e_default_date E)
                       else Some (YStr (qualify (replace "}" "" (replace "${" "" s))))
    | Some v => if truthy v then Some v else option_map (fun v => YStr (qualify v)) (e_default_date E)
    | None => option_map (fun v => YStr (qualify v)) (e_default_date E)
    end.
  (** 1717-1720 *)
  Definition view_default_date : string := qualify (match e_default_date E with Some v => v | None => "None" end).
  (** 1722-1755 *)
  Definition canon_errors (d : ydict) : res (list rule) :=
    match canon_date d with
    | None => Ok []
    | Some (YStr s) =>
        if String.eqb s view_default_date then Ok []
        else match e_by_name E s with
             | Ok i => Ok (chk (negb (String.eqb (fi_ftype i) "dimension_group") || negb (String.eqb (fi_type i) "time")) RCanonKind)
             | Err AccessDenied | Err QueryError => Ok [RCanonMissing]
             | Err e => Err e
             end
    | Some _ => Ok [RCanonType]
    end.

  (** non_additive_dimension, 451-470.  Simplified: a name or grouping that is not a text is a TypeError (lists
      and mappings would be printed). *)
  Definition qualify_value (v : yv) : yv := match v with YStr s => YStr (qualify s) | _ => v end.
  Definition nad (d : ydict) : res (option yv) :=
    match get "non_additive_dimension" d with
    | Some (YDict (x :: r)) =>
        let m := x :: r in
        match assoc "name" m with
        | None => Err KeyError
        | Some (YStr n) =>
            let m := set_key "name" (YStr (qualify n)) m in
            match assoc "window_groupings" m with
            | Some (YList l) => if forallb is_str l then Ok (Some (YDict (match l with [] => m | _ => set_key "window_groupings" (YList (map qualify_value l)) m end))) else Err TypeError
            | _ => Ok (Some (YDict m))
            end
        | Some _ => Err TypeError
        end
    | v => Ok v
    end.
  Definition nad_on (v : option yv) : bool := match v with Some v => truthy v | None => false end.

  (** sql, 246-315: the filters that are applied *)
  Definition filters_to_apply (name : string) (d : ydict) : res (list ydict) :=
    match get "filters" d with
    | None => Ok []
    | Some (YList l) =>
        fs <- mapM (fun v => match v with YDict f => Ok f | _ => Err AttributeError end) l ;;
        Ok (List.filter (fun f => negb (eq_str (get "field" f) name)) fs)
    | Some (YStr s) => if String.eqb s "" then Ok [] else Err AttributeError
    | Some (YDict m) => match m with [] => Ok [] | _ => Err AttributeError end
    | Some _ => Err TypeError
    end.
  (** _clean_sql_for_case, 2646-2651 *)
  Definition clean_case (s : string) : string :=
    fold_left (fun t r => if String.eqb r "TABLE" then t else replace (placeholder r) (placeholder (lower r)) t) (fields_to_replace s) s.
  Definition sql_finish (name : string) (d : ydict) (v : yv) : res (option yv) :=
    m <- (if truthy (filters d) then Ok (Some YNull) else nad d) ;;
    v <- (if truthy (filters d) || nad_on m then
            if eq_str (Some v) "*" then Err QueryError
            else
              fs <- filters_to_apply name d ;;
              n <- nad d ;;
              n <- (if nad_on n then match n with Some (YDict m) => Ok (Some m) | _ => Err AttributeError end else Ok None) ;;
              t <- e_translate E v fs n ;; Ok (YStr t)
          else Ok v) ;;
    v <- (if eq_str (ytype d) "tier" then
            match get "tiers" d with
            | Some (YList []) => Err IndexError
            | Some (YList l) => Ok (YStr (e_tier E v l))
            | _ => Ok v
            end
          else Ok v) ;;
    let v := if eq_str (ytype d) "yesno" then YStr ("(" ++ e_paren E v ++ ")")%string else v in
    Ok (Some (match v with YStr s => YStr (clean_case s) | _ => v end)).
  Definition sql_body (name : string) (d : ydict) : res (option yv) :=
    match get "sql" d with
    | Some v => sql_finish name d v
    | None =>
        match get "case" d with
        | Some c => t <- e_case E c ;; sql_finish name d (YStr t)
        | None => if String.eqb (ftype d) "measure" && eq_str (ytype d) "count" then t <- e_count_sql E ;; sql_finish name d (YStr t) else Ok None
        end
    end.
  (** An AttributeError inside the property makes Python read the definition, base.py:14-15 *)
  Definition sql (name : string) (d : ydict) : res (option yv) :=
    match sql_body name d with Err AttributeError => Ok (get "sql" d) | r => r end.
  (** sql_start and sql_end, 317-327 *)
  Definition sql_side (k : string) (d : ydict) : option yv := match get k d with Some (YStr s) => Some (YStr (clean_case s)) | v => v end.

  (** referenced_fields, 2524-2548: a name that was not found, or a field *)
  Fixpoint refs (fuel : nat) (view s : string) : res (list (string + finfo)) :=
    match fuel with
    | 0 => Err RecursionError
    | S n =>
        concatM (fun r =>
          if String.eqb r "TABLE" then Ok []
          else match e_with_view E view r with
               | Err AccessDenied => Ok [inl r]
               | Err e => Err e
               | Ok i =>
                   if String.eqb (fi_type i) "number" then
                     t <- fi_sql i ;;
                     match t with
                     | None => Ok []
                     | Some t => if contains "{%" t then Ok [] else refs n (fi_view i) t
                     end
                   else Ok [inr i]
               end) (fields_to_replace s)
    end.
  Definition refs_of (v : option yv) : res (list (string + finfo)) :=
    match v with None | Some YNull => Ok [] | Some (YStr s) => refs fuel (e_view E) s | Some _ => Err TypeError end.
  (** measure, 355-360: None, a field, or (after an AttributeError) the value of the definition *)
  Definition measure (d : ydict) : res (option (yv + finfo)) :=
    match get "measure" d with
    | None => Ok None
    | Some v => if truthy v then match v with
                                 | YStr s => i <- e_with_view E (e_view E) s ;; Ok (Some (inr i))
                                 | _ => Ok (Some (inl v))
                                 end
                else Ok None
    end.
  (** get_referenced_sql_query(strings_only=False), 2505-2522 *)
  Definition referenced (name : string) (d : ydict) : res (option (list (string + finfo))) :=
    s <- sql name d ;;
    looker <- match s with
              | Some (YStr t) => Ok (contains "{%" t)
              | Some v => if truthy v then match v with YList _ | YDict _ => Ok false | _ => Err TypeError end else Ok false
              | None => Ok false
              end ;;
    if looker : bool then Ok None
    else if eq_str (ytype d) "cumulative" then m <- measure d ;; Ok (Some [])
    else if eq_str (ytype d) "duration" && nad_on (sql_side "sql_start" d) && nad_on (sql_side "sql_end" d) then
      a <- refs_of (sql_side "sql_start" d) ;; b <- refs_of (sql_side "sql_end" d) ;; Ok (Some (a ++ b))
    else l <- refs_of s ;; Ok (Some l).
  (** collect_sql_errors, 2480-2503 *)
  Definition missing (l : list (string + finfo)) : list rule := flat_map (fun x => match x with inl r => [RBadRef r] | inr _ => [] end) l.
  Definition sql_errors (name : string) (d : ydict) (s : string) : res (list rule) :=
    r <- referenced name d ;;
    Ok (chk (String.eqb s (placeholder name)) RSelfRef ++ match r with None => [RLooker] | Some l => missing l end).
  (** "elif self.sql is not None: errors.extend(self.collect_sql_errors(self.sql, ..))" *)
  Definition own_sql_errors (name : string) (d : ydict) : res (list rule) :=
    s <- sql name d ;;
    match s with
    | Some (YStr t) => sql_errors name d t
    | Some YNull | None => Ok []
    | Some _ => r <- referenced name d ;; Ok (match r with None => [RLooker] | Some l => missing l end)
    end.

  (** 1758-1923 *)
  Definition dimension_errors (name : string) (d : ydict) : res (list rule) :=
    s <- (if negb (match get "sql" d with Some v => is_str v | None => false end) && negb (has "case" d) then Ok [RSql]
          else if has "case" d then Ok [RCase]
          else own_sql_errors name d) ;;
    dr <- match get "drill_fields" d with
          | None => Ok []
          | Some (YList []) => Ok []
          | Some (YList l) =>
              ns <- e_drill E l ;;
              concatM (fun f => match e_get_field E f with Ok _ => Ok [] | Err AccessDenied => Ok [RDrillField f] | Err e => Err e end) ns
          | Some _ => Ok [RDrill]
          end ;;
    Ok (chk (negb (str_in (ytype d) dimension_options)) RDimType
        ++ chk (eq_str (ytype d) "string" && negb (on "hidden" d) && negb (has "searchable" d)) RSearchableMissing
        ++ chk (bad "primary_key" is_bool d) RPrimaryKey
        ++ s
        ++ listed "tags" RTags is_str RTag d
        ++ dr
        ++ chk (bad "searchable" is_bool d) RSearchable
        ++ (if eq_str (ytype d) "tier" then if has "tiers" d then listed "tiers" RTiers is_int RTier d else [RTiersMissing] else [])
        ++ chk (bad "link" is_str d) RLink).

  (** 1964-1995 and 2054-2089: the values of timeframes or intervals; the message of an empty list reads the key *)
  Definition frames_errors (k : string) (top none : rule) (r : yv -> rule) (valid : list string) (d : ydict) : res (list rule) :=
    match get k d with
    | None => Err KeyError
    | Some (YList []) => Ok [none]
    | Some (YList l) => Ok (elements (fun v => str_in (Some v) valid) r l)
    | Some _ => Ok [top]
    end.
  (** 1995-2008 *)
  Definition time_sql_errors (name : string) (d : ydict) : res (list rule) :=
    match get "sql" d with
    | None => Err KeyError
    | Some (YStr _) => own_sql_errors name d
    | Some _ => Ok [RTimeSql]
    end.
  (** 2098-2116 *)
  Definition side_errors (name k : string) (r : rule) (d : ydict) : res (list rule) :=
    match sql_side k d with Some (YStr t) => sql_errors name d t | _ => Ok [r] end.
  (** 1926-2116 *)
  Definition group_errors (name : string) (d : ydict) : res (list rule) :=
    t <- (if eq_str (ytype d) "time" then
            fr <- frames_errors "timeframes" RTimeframes RNoTimeframes RTimeframe VALID_TIMEFRAMES d ;;
            s <- time_sql_errors name d ;;
            Ok (chk (has "intervals" d) RTimeIntervals ++ fr ++ s
                ++ chk (bad "convert_tz" is_bool d) RConvertTz
                ++ chk (bad "convert_timezone" is_bool d) RConvertTimezone
                ++ chk (has "datatype" d && negb (str_in (get "datatype" d) datatype_options)) RDatatype)
          else if eq_str (ytype d) "duration" then
            fr <- frames_errors "intervals" RIntervals RNoIntervals RInterval VALID_INTERVALS d ;;
            a <- side_errors name "sql_start" RSqlStart d ;;
            b <- side_errors name "sql_end" RSqlEnd d ;;
            Ok (chk (has "timeframes" d) RDurTimeframes ++ fr ++ chk (has "sql" d) RDurSql ++ a ++ b)
          else Ok []) ;;
    Ok (chk (negb (str_in (ytype d) dimension_group_options)) RGroupType
        ++ chk (bad "primary_key" is_bool d) RPrimaryKey
        ++ t).

  (** is_merged_result, 389-405, as a truth value.  Simplified: an AttributeError cannot happen inside it. *)
  Definition merged_result (name : string) (d : ydict) : res bool :=
    match get "is_merged_result" d with
    | Some v => Ok (truthy v)
    | None =>
        if eq_str (ytype d) "number" && String.eqb (ftype d) "measure" then
          s <- sql name d ;;
          l <- refs_of s ;;
          let dates := flat_map (fun x => match x with
                                          | inr i => if String.eqb (fi_ftype i) "measure" && negb (String.eqb (fi_type i) "cumulative") then [fi_canon i] else []
                                          | inl _ => []
                                          end) l in
          Ok (match dates with [] => false | x :: r => negb (forallb (fun y => match x, y with Some a, Some b => String.eqb a b | None, None => true | _, _ => false end) r) end)
        else Ok false
    end.
  (** 2205-2253 *)
  Definition cumulative_errors (d : ydict) : res (list rule) :=
    m <- match measure d with
         | Ok None | Err AccessDenied | Err QueryError => Ok [RCumUnreachable]
         | Ok (Some (inr i)) => Ok (chk (negb (String.eqb (fi_ftype i) "measure")) RCumNotMeasure)
         | Ok (Some (inl _)) => Err AttributeError
         | Err e => Err e
         end ;;
    Ok (chk (negb (has "measure" d)) RCumNoMeasure ++ chk (bad "measure" is_str d) RCumMeasureType ++ m
        ++ chk (bad "cumulative_where" is_str d) RCumWhere
        ++ chk (bad "update_where_timeframe" is_bool d) RUpdateWhere).
  (** 2276-2316 *)
  Definition distinct_errors (d : ydict) : res (list rule) :=
    if str_in (ytype d) requires_sql_distinct_key && negb (on "sql_distinct_key" d) then Ok [RNoDistinctKey]
    else match get "sql_distinct_key" d with
         | Some (YStr s) =>
             concatM (fun r => if String.eqb r "TABLE" then Ok []
                               else match e_with_view E (e_view E) r with Ok _ => Ok [] | Err AccessDenied => Ok [RDistinctRef r] | Err e => Err e end) (fields_to_replace s)
         | Some v => Ok (chk (truthy v) RDistinctKey)
         | None => Ok []
         end.
  (** 2318-2455; [m] is the qualified non additive dimension *)
  Definition found_errors (r : string) (ok : finfo -> bool) (kind miss : rule) : res (list rule) :=
    match e_with_view E (e_view E) r with Ok i => Ok (chk (negb (ok i)) kind) | Err AccessDenied => Ok [miss] | Err e => Err e end.
  Definition is_time_group (i : finfo) : bool := String.eqb (fi_ftype i) "dimension_group" && String.eqb (fi_type i) "time".
  Definition is_dimension (i : finfo) : bool := mem (fi_ftype i) ["dimension_group"; "dimension"].
  Definition text (v : option yv) : string := match v with Some (YStr s) => s | _ => "" end.
  Definition nad_keys := ["name"; "window_choice"; "window_aware_of_query_dimensions"; "nulls_are_equal"; "window_groupings"].
  Definition nad_errors (d : ydict) : res (list rule) :=
    match get "non_additive_dimension" d with
    | None => Ok []
    | Some (YDict []) => Ok [RNadName]
    | Some (YDict _) =>
        v <- nad d ;;
        match v with
        | Some (YDict m) =>
            a <- found_errors (text (get "name" m)) is_time_group RNadKind RNadMissing ;;
            w <- (if str_in (get "window_choice" m) ["max"; "min"] then Ok []
                  else if has "window_choice" m then Ok [RWindow] else Err KeyError) ;;
            g <- match get "window_groupings" m with
                 | None => Ok []
                 | Some (YList l) => concatM (fun v => found_errors (text (Some v)) is_dimension (RGroupingKind (text (Some v))) (RGroupingMissing (text (Some v)))) l
                 | Some _ => Ok [RGroupings]
                 end ;;
            Ok (a ++ w
                ++ chk (bad "window_aware_of_query_dimensions" is_bool m) RWindowAware
                ++ chk (bad "nulls_are_equal" is_bool m) RNullsEqual
                ++ g
                ++ map RNadKey (List.filter (fun k => negb (mem k nad_keys)) (map fst m)))
        | _ => Ok []
        end
    | Some _ => Ok [RNad]
    end.
  (** 2118-2455 *)
  Definition measure_errors (name : string) (d : ydict) : res (list rule) :=
    let cumulative := eq_str (ytype d) "cumulative" in
    dt <- match canon_date d with
          | Some v => if truthy v then Ok [] else b <- merged_result name d ;; Ok [RNoDate b]
          | None => b <- merged_result name d ;; Ok [RNoDate b]
          end ;;
    s <- (if negb (has "sql" d) && negb cumulative then Ok [RNoSql]
          else if negb cumulative && bad "sql" is_str d then Ok [RMeasureSql]
          else if cumulative then s <- sql name d ;; Ok [] else own_sql_errors name d) ;;
    c <- (if cumulative then cumulative_errors d else Ok []) ;;
    k <- distinct_errors d ;;
    n <- nad_errors d ;;
    Ok (chk (negb (str_in (ytype d) measure_options)) RMeasureType
        ++ chk (has "primary_key" d) RMeasureKey
        ++ dt ++ s
        ++ chk (bad "is_merged_result" is_bool d) RMergedResult
        ++ c ++ k ++ n).

  (** collect_errors, 1481-2478, before the warnings of personal fields: the errors and the definition left behind.
      Simplified: the definition left behind shows the qualified non additive dimension of measures only. *)
  Definition errors (d : ydict) : res (list rule * ydict) :=
    match get "name" d with
    | Some (YStr name) =>
        let ft := ftype d in
        fs <- filters_errors name d ;;
        let d := qualify_filters d in
        c <- canon_errors d ;;
        k <- (if String.eqb ft "dimension" then dimension_errors name d
              else if String.eqb ft "dimension_group" then group_errors name d
              else if String.eqb ft "measure" then measure_errors name d
              else Ok []) ;;
        n <- (if String.eqb ft "measure" then nad d else Ok None) ;;
        Ok ((if valid_name name then chk (mem name (e_reserved E) && negb (String.eqb ft "dimension_group")) RReserved else [RName])
            ++ chk (negb (mem ft field_type_options)) RFieldType
            ++ chk (negb (has "type" d)) RNoType
            ++ chk (label_bad d) RLabel
            ++ chk (bad "group_label" is_str d) RGroupLabel
            ++ chk (bad "hidden" is_bool d) RHidden
            ++ chk (bad "description" is_str d) RDescription
            ++ chk (too_long "description" d) RDescriptionLong
            ++ chk (bad "zoe_description" is_str d) RZoe
            ++ chk (too_long "zoe_description" d) RZoeLong
            ++ chk (has "value_format_name" d && negb (str_in (get "value_format_name" d) VALID_VALUE_FORMAT_NAMES)) RValueFormat
            ++ listed "synonyms" RSynonyms is_str RSynonym d
            ++ fs
            ++ chk (bad "extra" is_dict d) RExtra
            ++ grants_errors d
            ++ c ++ k
            ++ map RProperty (List.filter (fun k => negb (mem k (valid_properties ft))) (map fst d)),
            match n with Some v => set_key "non_additive_dimension" v d | None => d end)
    | _ => Err TypeError
    end.
  (** The messages that begin with "Warning:" (1813 and 2152), and 2470-2476: "warning_prefix not in e" looks at
      the keys of the error, so every error of a personal field gets the prefix *)
  Definition warns (r : rule) : nat := match r with RCase | RNoDate false => 1 | _ => 0 end.
  Definition collect_errors (d : ydict) : res (list (nat * rule) * ydict) :=
    x <- errors d ;;
    let '(rs, d') := x in
    Ok (map (fun r => ((if on "is_personal_field" d then S (warns r) else warns r), r)) rs, d').
End Check.
