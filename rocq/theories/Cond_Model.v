(** One condition of a query, {"field", "expression", "value"}: MetricsLayerFilter.__init__, validate and criterion
    (core/sql/query_filter.py:22-25, 41-62, 101-152, 247-273) with a design, i.e. outside alias queries.
    Groups and literals are in Clause_Model. *)
From Coq Require Import QArith.
From Verif Require Import PyBase PyStr PyRx PyDate Core_Model Filter_Model.
Local Open Scope string_scope.
Local Open Scope list_scope.

(** MetricsLayerFilterExpressionType.parse, model/filter.py:37-77 *)
Definition expression_names : list (string * fexpr) :=
  [("unknown", EUnknown); ("less_than", ELessThan); ("less_or_equal_than", ELessOrEqual); ("equal_to", EEqualTo);
   ("not_equal_to", ENotEqualTo); ("greater_or_equal_than", EGreaterOrEqual); ("greater_than", EGreaterThan); ("like", ELike);
   ("contains", EContains); ("does_not_contain", EDoesNotContain); ("contains_case_insensitive", EContainsCI);
   ("does_not_contain_case_insensitive", EDoesNotContainCI); ("starts_with", EStartsWith); ("ends_with", EEndsWith);
   ("does_not_start_with", EDoesNotStartWith); ("does_not_end_with", EDoesNotEndWith);
   ("starts_with_case_insensitive", EStartsWithCI); ("ends_with_case_insensitive", EEndsWithCI);
   ("does_not_start_with_case_insensitive", EDoesNotStartWithCI); ("does_not_end_with_case_insensitive", EDoesNotEndWithCI);
   ("is_null", EIsNull); ("is_not_null", EIsNotNull); ("isin", EIsIn); ("isnotin", EIsNotIn);
   ("boolean_true", EBooleanTrue); ("boolean_false", EBooleanFalse); ("matches", EMatches)].
Definition parse_expression (s : string) : fexpr := match assoc s expression_names with Some e => e | None => EUnknown end.

(** The dict: outer None is a missing key.  [CTime] values are datetime objects here. *)
Record cdef := CDef { cd_field : option string; cd_expression : option string; cd_value : option cval }.
(** The attributes of the field that are used *)
Record cfield := CField { cf_type : string; cf_datatype : string }.

(** w in str(value), for a word of letters: texts (literals included), booleans and lists of texts can show it *)
Definition shows (w : string) (v : cval) : bool :=
  match v with
  | CStr s | CLit s => contains w s
  | CBool b => contains w (if b then "True" else "False")
  | CStrs l => existsb (contains w) l
  | CNone => contains w "None"
  | CNum _ | CNums _ | CTime _ => false
  end.
Definition no_value_needed : list string := ["is_null"; "is_not_null"; "boolean_true"; "boolean_false"; "converted"; "dropped_off"].
Definition needs_datetime_cast (qt : string) : bool := mem qt ["BIGQUERY"; "TRINO"].

Section Cond.
  Variable qt : string.
  (** design.get_field; and, for a value that names a field, the SQL of that field (135-141, any exception is
      swallowed) *)
  Variable get_field : string -> res cfield.
  Variable value_sql : string -> res string.
  (** datatype_cast of a value of a field, 22-25: the text of the literal *)
  Variable cast : cfield -> cval -> string.
  (** Filter({...}).filter_dict() on the value of a matches expression, with the week start day and timezone of
      the design *)
  Variable matched : cval -> res (list cond).
  Variable num : string -> res Q.

  (** 101-115: what does not need the field *)
  Definition is_boolean_value (d : cdef) : bool :=
    match cd_field d, cd_value d with
    | None, Some (CBool true) => true
    | None, Some (CStr s) => String.eqb (lower s) "true"
    | _, _ => false
    end.
  Definition check (d : cdef) : res unit :=
    match cd_field d with
    | None => if is_boolean_value d then Ok tt else Err ParseError
    | Some _ => Ok tt
    end.
  Definition check_expression (d : cdef) : res unit :=
    match cd_expression d with
    | None => Err KeyError
    | Some "UNKNOWN" => Err NotImplemented
    | Some e =>
        match cd_value d with
        | None | Some CNone => if mem e no_value_needed then Ok tt else Err ParseError
        | _ => Ok tt
        end
    end.
  (** 131-141 *)
  Definition field_value (v : option cval) : option cval :=
    match v with
    | Some (CStr s) => if has_char dot s then match value_sql s with Ok q => Some (CLit q) | Err _ => v end else v
    | _ => v
    end.
  (** 143-146 *)
  Definition cast_value (f : cfield) (v : option cval) : res (option cval) :=
    if needs_datetime_cast qt then
      match v with None => Err KeyError | Some (CTime t) => Ok (Some (CLit (cast f (CTime t)))) | _ => Ok v end
    else Ok v.
  (** 148-152: a yes/no field *)
  Definition yesno (f : cfield) (e : string) (v : option cval) : res string :=
    if String.eqb (cf_type f) "yesno" then
      match v with
      | None => Err KeyError
      | Some x => Ok (if shows "True" x then "boolean_true" else if shows "False" x then "boolean_false" else e)
      end
    else Ok e.
  (** The validated condition: its field, its expression and its value *)
  Definition validate (d : cdef) : res (option cfield * fexpr * cval) :=
    _ <- check d ;;
    _ <- check_expression d ;;
    match cd_expression d with
    | None => Err KeyError
    | Some e =>
        match cd_field d with
        | None => Ok (None, parse_expression e, CBool true)
        | Some k =>
            f <- get_field k ;;
            v <- cast_value f (field_value (cd_value d)) ;;
            e' <- yesno f e v ;;
            Ok (Some f, parse_expression e', match v with Some x => x | None => CNone end)
        end
    end.
  (** criterion, 247-273: the comparisons, all of which have to hold.  A condition without a field has no SQL
      for its column (None.sql_query). *)
  Definition comparisons (d : cdef) : res (list crit) :=
    x <- validate d ;;
    let '(f, e, v) := x in
    match f with
    | None => Err AttributeError
    | Some f =>
        match e with
        | EMatches =>
            cs <- matched v ;;
            mapM (fun c => let v := if needs_datetime_cast qt then CLit (cast f (snd c)) else snd c in
                           criterion num (String.eqb (cf_type f) "number") (fst c) v) cs
        | _ => k <- criterion num (String.eqb (cf_type f) "number") e v ;; Ok [k]
        end
    end.
End Cond.
