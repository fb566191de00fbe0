(** What seeding writes, as definitions: the data types it knows and the dictionaries of a field and of a view
    (metrics_layer/cli/seeding.py:46-180, 320-334, 349-433). The tables were taken from the source by a script that reads its
    syntax tree. The definitions are those of FieldCheck_Model, so that the checks of a project can be run on them. *)
From Coq Require Import List String Ascii ZArith Bool.
From Verif Require Import PyBase PyStr Connections_Model FieldCheck_Model Seed_Model.
Import ListNotations.
Local Open Scope string_scope.
Local Open Scope list_scope.

(** seeding.py:46-65 *)
Definition snowflake_types : list (string * string) :=
  [("DATE", "date"); ("DATETIME", "timestamp"); ("TIMESTAMP_TZ", "timestamp"); ("TIMESTAMP_NTZ", "timestamp");
   ("TIMESTAMP_LTZ", "timestamp"); ("TIMESTAMP", "timestamp"); ("BOOLEAN", "yesno"); ("FIXED", "number"); ("FLOAT", "number");
   ("REAL", "number"); ("TEXT", "string"); ("VARCHAR", "string"); ("CHAR", "string"); ("CHARACTER", "string"); ("STRING", "string");
   ("BINARY", "string"); ("VARBINARY", "string"); ("NUMBER", "number")].
(** seeding.py:67-82 *)
Definition redshift_types : list (string * string) :=
  [("TIME", "timestamp"); ("TIMETZ", "timestamp"); ("TIMESTAMP", "timestamp"); ("TIMESTAMPTZ", "timestamp"); ("DATE", "date");
   ("CHAR", "string"); ("VARCHAR", "string"); ("BOOLEAN", "yesno"); ("DOUBLE PRECISION", "number"); ("DOUBLE", "number");
   ("PRECISION", "number"); ("REAL", "number"); ("DECIMAL", "number"); ("BIGINT", "number")].
(** seeding.py:83-98 *)
Definition databricks_types : list (string * string) :=
  [("TIME", "timestamp"); ("TIMESTAMP", "timestamp"); ("TIMESTAMP_NTZ", "timestamp"); ("DATE", "date"); ("STRING", "string");
   ("BOOLEAN", "yesno"); ("DOUBLE", "number"); ("FLOAT", "number"); ("DECIMAL", "number"); ("LONG", "number"); ("INT", "number");
   ("SMALLINT", "number"); ("BIGINT", "number"); ("TINYINT", "number")].
(** seeding.py:99-113 *)
Definition druid_types : list (string * string) :=
  [("CHAR", "string"); ("VARCHAR", "string"); ("DECIMAL", "number"); ("FLOAT", "number"); ("REAL", "number"); ("DOUBLE", "number");
   ("BOOLEAN", "yesno"); ("TINYINT", "number"); ("SMALLINT", "number"); ("INTEGER", "number"); ("BIGINT", "number");
   ("TIMESTAMP", "timestamp"); ("DATE", "date")].
(** seeding.py:115-129 *)
Definition postgres_types : list (string * string) :=
  [("date", "date"); ("timestamp without time zone", "timestamp"); ("timestamp with time zone", "timestamp"); ("text", "string");
   ("boolean", "yesno"); ("bigint", "number"); ("integer", "number"); ("smallint", "number"); ("real", "number");
   ("double precision", "number"); ("numeric", "number"); ("float", "number"); ("money", "number")].
(** seeding.py:130-150 *)
Definition sql_server_types : list (string * string) :=
  [("float", "number"); ("real", "number"); ("bigint", "number"); ("numeric", "number"); ("smallint", "number"); ("decimal", "number");
   ("smallmoney", "number"); ("int", "number"); ("tinyint", "number"); ("money", "number"); ("char", "string"); ("varchar", "string");
   ("text", "string"); ("date", "date"); ("datetime2", "datetime"); ("smalldatetime", "datetime"); ("datetime", "datetime");
   ("time", "datetime"); ("bit", "yesno")].
(** seeding.py:151-160 *)
Definition bigquery_types : list (string * string) :=
  [("DATE", "date"); ("DATETIME", "timestamp"); ("TIMESTAMP", "timestamp"); ("BOOL", "yesno"); ("FLOAT64", "number"); ("INT64", "number");
   ("NUMERIC", "number"); ("STRING", "string")].
(** seeding.py:161-180 *)
Definition trino_types : list (string * string) :=
  [("boolean", "yesno"); ("tinyint", "number"); ("smallint", "number"); ("integer", "number"); ("int", "number"); ("bigint", "number");
   ("real", "number"); ("double", "number"); ("decimal", "number"); ("varchar", "string"); ("char", "string"); ("varbinary", "string");
   ("json", "string"); ("date", "date"); ("timestamp", "timestamp"); ("timestamp(p)", "timestamp");
   ("timestamp with time zone", "timestamp"); ("timestamp(p) with time zone", "timestamp")].

(** seeding.py:351-368 *)
Definition types_of (wh : cls) : list (string * string) :=
  match wh with
  | Snowflake => snowflake_types
  | Redshift => redshift_types
  | Postgres | DuckDB => postgres_types
  | BigQuery => bigquery_types
  | Druid => druid_types
  | SQLServer | AzureSynapse => sql_server_types
  | Databricks => databricks_types
  | Trino => trino_types
  end.
Definition type_lookup (wh : cls) (t : string) : option string := assoc t (types_of wh).

(** seeding.py:391-403 *)
Definition seeded_timeframes : list string :=
  ["raw"; "date"; "day_of_year"; "week"; "week_of_year"; "month"; "month_of_year"; "quarter"; "year"].
Definition kv (k v : string) : string * yv := (k, YStr v).
(** seeding.py:385-433: a field as it is written *)
Definition field_dict (f : field) : ydict :=
  [kv "name" (sf_name f); kv "sql" (sf_sql f)]
  ++ match sf_description f with Some d => [kv "description" d] | None => [] end
  ++ match sf_kind f with
     | Group => [kv "field_type" "dimension_group"; kv "type" (sf_type f); ("timeframes", YList (map YStr seeded_timeframes))]
     | Dim => [kv "field_type" "dimension"; kv "type" (sf_type f)]
     end
  ++ match sf_datatype f with Some t => [kv "datatype" t] | None => [] end
  ++ match sf_searchable f with Some b => [("searchable", YBool b)] | None => [] end.
(** seeding.py:320-334: a view as it is written, after View.__init__ (view.py:46-54); an empty comment is left out *)
Definition view_dict (v : view) (model : string) (comment : option string) : ydict :=
  [("version", YInt 1); kv "type" "view"; kv "name" (sv_name v); kv "model_name" model; kv "sql_table_name" (sv_table v)]
  ++ match sv_default_date v with Some d => [kv "default_date" d] | None => [] end
  ++ [("fields", YList (map (fun f => YDict (field_dict f)) (sv_fields v)))]
  ++ match comment with Some c => if String.eqb c "" then [] else [kv "description" c] | None => [] end
  ++ [("sets", YList [])].
(** seeding.py:278-285: the model that is written *)
Definition model_dict (connection : string) : ydict :=
  [("version", YInt 1); kv "type" "model"; kv "name" "base_model"; kv "connection" connection].
