(** The text of conditions: how the values of a condition are written into SQL.
    Filter.sql_query (core/model/filter.py:531-583) prints through pypika 0.48 (terms.py: Term.wrap_constant,
    ValueWrapper.get_formatted_value, BasicCriterion, ContainsCriterion, NullCriterion, Not, ComplexCriterion,
    functions.Lower), LiteralValueCriterion (filter.py:21-28), datatype_cast (core/sql/query_filter.py:22-25), the
    text of the filters of a measure (filter.py:486-529) and of a looker case (core/model/field.py:2632-2644).
    The conditions themselves are in Filter_Model and Cond_Model, the clause in Clause_Model. *)
From Coq Require Import List String Ascii ZArith QArith Bool.
From Verif Require Import PyBase PyStr Core_Model Filter_Model Clause_Model Cond_Model.
From Verif Require Connections_Model.
Import ListNotations.
Local Open Scope string_scope.
Local Open Scope list_scope.

Definition quote : ascii := "'"%char.
(** value.replace("'", "''") *)
Fixpoint doubled (s : string) : string :=
  match s with
  | EmptyString => EmptyString
  | String c r => if Ascii.eqb c quote then String quote (String quote (doubled r)) else String c (doubled r)
  end.
(** get_formatted_value of a text: secondary_quote_char is the single quote for every query class of query_dialect.py *)
Definition quoted (s : string) : string := String quote (doubled s ++ String quote EmptyString)%string.

Section Text.
  (** str() of a number; the text of a date and time (filter.py:484) *)
  Variable num_str : Q -> string.
  Variable time_str : Z -> string.
  (** wrap_constant and get_sql.  A list becomes an Array; its brackets are those of the dialects without the
      word ARRAY (simplified for Postgres and Redshift). *)
  Definition value_text (v : cval) : string :=
    match v with
    | CNone => "null"
    | CBool true => "true"
    | CBool false => "false"
    | CStr s => quoted s
    | CNum q => num_str q
    | CTime t => quoted (time_str t)
    | CLit s => s
    | CStrs l => ("[" ++ join_with "," (map quoted l) ++ "]")%string
    | CNums l => ("[" ++ join_with "," (map num_str l) ++ "]")%string
    end.
  (** isin(value): a list becomes a Tuple; a literal is printed as it is; anything else has no get_sql *)
  Definition tuple_text (v : cval) : res string :=
    match v with
    | CStrs l => Ok ("(" ++ join_with "," (map quoted l) ++ ")")%string
    | CNums l => Ok ("(" ++ join_with "," (map num_str l) ++ ")")%string
    | CLit s => Ok s
    | _ => Err AttributeError
    end.
  Definition cmp_text (c : cmp) : string :=
    match c with CmpLt => "<" | CmpLe => "<=" | CmpEq => "=" | CmpNe => "<>" | CmpGe => ">=" | CmpGt => ">" end.
  Definition like_text (negated : bool) : string := if negated then " NOT LIKE " else " LIKE ".
  (** str() of a criterion on the column [f] *)
  Definition criterion_text (f : string) (k : crit) : res string :=
    match k with
    | KCmp c v => Ok (f ++ cmp_text c ++ value_text v)%string
    | KLike false n p => Ok (f ++ like_text n ++ quoted p)%string
    | KLike true n p => Ok ("LOWER(" ++ f ++ ")" ++ like_text n ++ "LOWER(" ++ quoted p ++ ")")%string
    | KIsNull => Ok (f ++ " IS NULL")%string
    | KNotNull => Ok ("NOT " ++ f ++ " IS NULL")%string
    | KIn v => t <- tuple_text v ;; Ok (f ++ " IN " ++ t)%string
    | KNotIn v => t <- tuple_text v ;; Ok (f ++ " NOT IN " ++ t)%string
    | KTrue => Ok f
    | KNot => Ok ("NOT " ++ f)%string
    end.

  (** The clause: one comparison is the column's SQL and its criterion *)
  Notation atom := (string * crit)%type.
  Definition tok_text (t : tok atom) : res string :=
    match t with
    | TAtom (f, k) => criterion_text f k
    | TAnd => Ok " AND "
    | TOr => Ok " OR "
    | TOpen => Ok "("
    | TClose => Ok ")"
    end.
  Fixpoint print (ts : list (tok atom)) : res string :=
    match ts with
    | [] => Ok ""
    | t :: r => x <- tok_text t ;; y <- print r ;; Ok (x ++ y)%string
    end.

  (** datatype_cast, query_filter.py:22-25; [repr v] is str() of a value that is neither a text nor a time *)
  Variable repr : cval -> string.
  Definition str_value (v : cval) : string :=
    match v with CStr s | CLit s => s | CTime t => time_str t | _ => repr v end.
  Definition datatype_cast (f : cfield) (v : cval) : string :=
    if String.eqb (Connections_Model.upper (cf_datatype f)) "DATE"
    then ("CAST(CAST('" ++ str_value v ++ "' AS TIMESTAMP) AS DATE)")%string
    else ("CAST('" ++ str_value v ++ "' AS " ++ Connections_Model.upper (cf_datatype f) ++ ")")%string.

  (** The comparisons of a condition of a query together with the SQL of its column (query_filter.py:212 and
      247-273).  [column k] is the SQL of the field [k]. *)
  Section Query.
    Variable qt : string.
    Variable get_field : string -> res cfield.
    Variable value_sql : string -> res string.
    Variable matched : cval -> res (list cond).
    Variable num : string -> res Q.
    Variable column : string -> string.
    Definition leaf_ok (d : cdef) : res unit := _ <- validate qt get_field value_sql datatype_cast d ;; Ok tt.
    Definition atoms (d : cdef) : res (list atom) :=
      ks <- comparisons qt get_field value_sql datatype_cast matched num d ;;
      Ok (map (fun k => (match cd_field d with Some n => column n | None => "" end, k)) ks).
    (** The text of the WHERE clause of a query without literals; None when there is no clause *)
    Definition where_text (fs : list (ftree atom cdef)) : res (option string) :=
      ts <- where_sql leaf_ok atoms None (ListWhere fs) ;;
      match ts with None => Ok None | Some ts => s <- print ts ;; Ok (Some s) end.
  End Query.

  (** translate_looker_filters_to_sql, filter.py:486-529: [cs] are the conditions of all filters, each with the
      name of its field *)
  Definition measure_case (sql : string) (cs : list atom) (else_0 : bool) : res string :=
    xs <- mapM (fun a => criterion_text ("${" ++ fst a ++ "}")%string (snd a)) cs ;;
    Ok ("case when " ++ join_with " and " xs ++ " then " ++ sql ++ (if else_0 then " else 0 end" else " end"))%string.

  (** _translate_looker_case_to_sql, field.py:2632-2644: the whens (their sql and label) and the else *)
  Definition case_whens (ws : list (string * string)) : string :=
    join_with "" (map (fun w => "when " ++ replace """" "'" (fst w) ++ " then '" ++ snd w ++ "' ")%string ws).
  Definition looker_case (ws : list (string * string)) (els : option string) : string :=
    ("case " ++ case_whens ws ++ match els with Some e => if String.eqb e "" then "" else "else '" ++ e ++ "' " | None => "" end ++ "end")%string.
End Text.
