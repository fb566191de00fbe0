(** Aggregate expressions of measures: field.py:517-797.
    The generated SQL is an expression tree together with its text; [render_agg] gives exactly the
    f-strings of the code.  [sql] is the measure's own (already substituted) SQL, [pk] the substituted
    primary key (with the measure's filters applied, 575-582), [dk] the substituted sql_distinct_key.
    Not modelled: alias_only, the type "number" (which substitutes other measures, see C39). *)
From Verif Require Import PyBase PyStr JoinGraph_Model Rel_Model.
Local Open Scope string_scope.


(** Definitions.supported_warehouses, definitions.py:2-26 *)
Inductive warehouse := Snowflake | BigQuery | Redshift | Postgres | Druid | SqlServer | DuckDb | Databricks | AzureSynapse | Trino.
(** Definitions.symmetric_aggregates_supported_warehouses, definitions.py:27 *)
Definition symmetric_supported (w : warehouse) : bool :=
  match w with Snowflake | Redshift | BigQuery | Postgres | DuckDb => true | _ => false end.

(** The four renderings _sum_symmetric_aggregate chooses between, 606-633 *)
Inductive sym := SymSnowflake | SymRedshift | SymPostgres | SymBigQuery.
Definition sym_of (w : warehouse) : option sym :=
  match w with
  | Snowflake => Some SymSnowflake
  | Redshift => Some SymRedshift
  | Postgres | DuckDb => Some SymPostgres
  | BigQuery => Some SymBigQuery
  | _ => None
  end.

(** Key valued expressions *)
Inductive kx :=
| KRaw (sql : string)
| KIfNotNull (sql key : string).            (* CASE WHEN (sql) IS NOT NULL THEN key ELSE NULL END *)
(** Integer valued expressions *)
Inductive nx :=
| NAdjusted (d : sym) (sql : string)        (* FLOOR(COALESCE(sql, 0) * factor) *)
| NHash (d : sym) (key : string)
| NAdd (a b : nx).
(** Aggregates *)
Inductive ax :=
| ASum (sql : string) | ACount (sql : string) | AAvg (sql : string)
| AMax (sql : string) | AMin (sql : string) | AMedian (sql : string)
| ACountDistinctVal (sql : string)          (* COUNT(DISTINCT(sql)) *)
| ACountDistinctKey (k : kx)
| ASumDistinct (n : nx)
| ASub (a b : ax)
| ABackOut (d : sym) (a : ax)               (* COALESCE(CAST((a) AS t) / CAST((factor*1.0) AS t), 0) *)
| ANullIfZero (a : ax)
| ADiv (a b : ax).

Definition render_key (k : kx) : string :=
  match k with
  | KRaw s => s
  | KIfNotNull s k => "CASE WHEN  (" ++ s ++ ")  IS NOT NULL THEN  " ++ k ++ "  ELSE NULL END"
  end.
Fixpoint render_num (n : nx) : string :=
  match n with
  | NAdjusted SymBigQuery s => "(CAST(FLOOR(COALESCE(" ++ s ++ ", 0) * (1000000 * 1.0)) AS FLOAT64))"
  | NAdjusted _ s => "(CAST(FLOOR(COALESCE(" ++ s ++ ", 0) * (1000000 * 1.0)) AS DECIMAL(38,0)))"
  | NHash SymSnowflake k => "(TO_NUMBER(MD5(" ++ k ++ "), 'XXXXXXXXXXXXXXXXXXXXXXXXXXXXXXXX') % 1.0e27)::NUMERIC(38, 0)"
  | NHash SymRedshift k => "(FARMFINGERPRINT64(" ++ k ++ "))::NUMERIC(38, 0)"
  | NHash SymPostgres k => "(HASHTEXTEXTENDED(" ++ k ++ ", 0))::NUMERIC(38, 0)"
  | NHash SymBigQuery k => "CAST(FARM_FINGERPRINT(CAST(" ++ k ++ " AS STRING)) AS BIGNUMERIC)"
  | NAdd a b => render_num a ++ " + " ++ render_num b
  end.
Definition float_type (d : sym) : string := match d with SymBigQuery => "FLOAT64" | _ => "DOUBLE PRECISION" end.
Fixpoint render_agg (a : ax) : string :=
  match a with
  | ASum s => "SUM(" ++ s ++ ")"
  | ACount s => "COUNT(" ++ s ++ ")"
  | AAvg s => "AVG(" ++ s ++ ")"
  | AMax s => "MAX(" ++ s ++ ")"
  | AMin s => "MIN(" ++ s ++ ")"
  | AMedian s => "MEDIAN(" ++ s ++ ")"
  | ACountDistinctVal s => "COUNT(DISTINCT(" ++ s ++ "))"
  | ACountDistinctKey k => "COUNT(DISTINCT " ++ render_key k ++ ")"
  | ASumDistinct n => "SUM(DISTINCT " ++ render_num n ++ ")"
  | ASub a b => render_agg a ++ " - " ++ render_agg b
  | ABackOut d a => "COALESCE(CAST((" ++ render_agg a ++ ") AS " ++ float_type d ++ ") / CAST((1000000*1.0) AS " ++ float_type d ++ "), 0)"
  | ANullIfZero a => "NULLIF(" ++ render_agg a ++ ", 0)"
  | ADiv a b => "(" ++ render_agg a ++ " / " ++ render_agg b ++ ")"
  end.

(** _sum_symmetric_aggregate and its variants, 603-706 *)
Definition sum_symmetric (d : sym) (sql key : string) : ax :=
  ABackOut d (ASub (ASumDistinct (NAdd (NAdjusted d sql) (NHash d key))) (ASumDistinct (NHash d key))).
(** _count_symmetric_aggregate, 719-730 *)
Definition count_symmetric (sql key : string) : ax := ANullIfZero (ACountDistinctKey (KIfNotNull sql key)).
(** _average_symmetric_aggregate, 763-773 *)
Definition average_symmetric (d : sym) (sql key : string) : ax := ADiv (sum_symmetric d sql key) (count_symmetric sql key).

(** The functional_pk argument: None, Definitions.does_not_exist or a field (its id) *)
Inductive fpk := FNone | FMissing | FKey (id : string).
(** _needs_symmetric_aggregate, 557-573; [own] is the id of the measure's view's primary key *)
Definition needs_symmetric (own : option string) (f : fpk) : res bool :=
  match f with
  | FNone => Ok false
  | _ => match own with
         | None => Err QueryError
         | Some id => Ok (match f with FKey k => negb (String.eqb id k) | _ => true end)
         end
  end.

Inductive mtype := TSum | TSumDistinct | TCount | TCountDistinct | TAverage | TAverageDistinct | TMedian | TMax | TMin | TOther.

(** `query_type in supported and self._needs_symmetric_aggregate(functional_pk)` *)
Definition protected (w : warehouse) (own : option string) (f : fpk) : res bool :=
  if symmetric_supported w then needs_symmetric own f else Ok false.

(** Dialects where _median_aggregate_sql refuses, 785-797 *)
Definition median_refused (w : warehouse) : bool :=
  match w with Druid | Postgres | BigQuery | SqlServer | AzureSynapse | Trino => true | _ => false end.

(** aggregate_sql_query, 517-536, with 584-797 *)
Definition aggregate (t : mtype) (w : warehouse) (sql pk dk : string) (pk_count : bool)
    (own : option string) (f : fpk) : res ax :=
  match t with
  | TSum =>
      p <- protected w own f ;;
      if (p : bool) then match sym_of w with Some d => Ok (sum_symmetric d sql pk) | None => Err QueryError end
      else Ok (ASum sql)
  | TSumDistinct =>
      match sym_of w with Some d => Ok (sum_symmetric d sql dk) | None => Err QueryError end
  | TCount =>
      p <- protected w own f ;;
      if (p : bool) then if pk_count then Ok (ACountDistinctVal sql) else Ok (count_symmetric sql pk)
      else Ok (ACount sql)
  | TCountDistinct => Ok (ACountDistinctVal sql)
  | TAverage =>
      p <- protected w own f ;;
      if (p : bool) then match sym_of w with Some d => Ok (average_symmetric d sql pk) | None => Err QueryError end
      else Ok (AAvg sql)
  | TAverageDistinct =>
      match sym_of w with Some d => Ok (average_symmetric d sql dk) | None => Err QueryError end
  | TMedian => if median_refused w then Err QueryError else Ok (AMedian sql)
  | TMax => Ok (AMax sql)
  | TMin => Ok (AMin sql)
  | TOther => Err QueryError
  end.

(** functional_pk as the generator passes it: the primary key field of the chosen view, if any *)
Definition pk_id (pk : string -> option string) (v : string) : option string :=
  match pk v with Some k => Some (v ++ "." ++ k)%string | None => None end.
Definition fpk_of (pk : string -> option string) (base : string) (js : list join) : fpk :=
  match functional_pk base js with
  | None => FMissing
  | Some v => match pk_id pk v with Some id => FKey id | None => FNone end
  end.
