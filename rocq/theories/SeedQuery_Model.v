(** What seeding asks the warehouse and where it files the answer: metrics_layer/cli/seeding.py __init__ 34-45, seed 182-244
    (the comments of tables) and 245-268, get_model_name 270-278, make_models 280-285, column_cardinalities_query 435-497,
    columns_query 499-544 and table_query 546-592.

    A query is kept in parts (source, conditions, limit) beside its text. What the warehouse answers is read off the parts: the
    source names the columns looked at, a condition is read as the SQL literal it is written as, and a limit keeps as many rows.
    The warehouse's own rules for the letter case of a database are not modelled: databases are equal when their names are. *)
From Coq Require Import List String Ascii ZArith Bool Arith.
From Verif Require Import PyBase PyStr Connections_Model Seed_Model.
From Verif Require Files_Model.
Import ListNotations.
Local Open Scope string_scope.
Local Open Scope list_scope.

(** a text that is None or empty is not given (Python truth) *)
Definition given (o : option string) : option string := match o with Some "" => None | o => o end.
Definition or_else (a b : option string) : option string := match given a with Some x => Some x | None => b end.

(** seeding.py:34-38: what is looked at. *)
Record place := Place { p_database : option string; p_schema : option string; p_table : option string }.
Definition place_of (database schema table conn_database conn_schema : option string) : place :=
  Place (or_else database conn_database) (or_else schema conn_schema)
        (match given table with Some t => Some (replace ".sql" "" t) | None => None end).

(** The INFORMATION_SCHEMA a query reads. *)
Inductive source := Own | OfDatabase (d : string) | OfDataset (d s : string).
Definition source_text (s : source) : string :=
  match s with
  | Own => ""
  | OfDatabase d => (d ++ ".")%string
  | OfDataset d s => ("`" ++ d ++ "." ++ s ++ "`.")%string
  end.
Record query := Query { q_select : string; q_source : source; q_where : list (string * string); q_limit : option nat; q_end : string }.

Definition cond_text (c : string * string) : string := (fst c ++ " = '" ++ snd c ++ "'")%string.
Definition where_text (l : list (string * string)) : string :=
  match l with [] => "" | _ => (" WHERE " ++ String.concat " AND " (map cond_text l))%string end.
Definition limit_text (n : option nat) : string := match n with None => "" | Some n => (" LIMIT " ++ nat_str n)%string end.
Definition text_of (q : query) : string :=
  (q_select q ++ " FROM " ++ source_text (q_source q) ++ "INFORMATION_SCHEMA.COLUMNS" ++
   where_text (q_where q) ++ limit_text (q_limit q) ++ q_end q)%string.

(** definitions.py:25 no_semicolon_warehouses. *)
Definition no_semicolon (c : cls) : bool := match c with Druid | Trino => true | _ => false end.
Definition ending (c : cls) : string := if no_semicolon c then "" else ";".

(** seeding.py:499-532: the columns asked for and the source. The branch for Databricks without a database (518-519) is under
    the test that there is one. *)
Definition source_of (wh : cls) (p : place) : res source :=
  match wh with
  | Snowflake | Redshift | Postgres | SQLServer | AzureSynapse | DuckDB | Databricks =>
      match given (p_database p) with Some d => Ok (OfDatabase d) | None => Err ValueError end
  | Druid | Trino => Ok Own
  | BigQuery => match given (p_database p), given (p_schema p) with
                | Some d, Some s => Ok (OfDataset d s)
                | _, _ => Err ValueError
                end
  end.
Definition select_of (wh : cls) : string :=
  match wh with
  | Druid | Trino => "SELECT TABLE_CATALOG, TABLE_SCHEMA, TABLE_NAME, COLUMN_NAME, DATA_TYPE"
  | Snowflake | Databricks => "SELECT table_catalog, table_schema, table_name, column_name, data_type, comment as comment"
  | _ => "SELECT table_catalog, table_schema, table_name, column_name, data_type"
  end.

(** seeding.py:534-538 *)
Definition conditions (p : place) : list (string * string) :=
  match given (p_schema p), given (p_table p) with
  | Some s, Some t => [("TABLE_SCHEMA", s); ("TABLE_NAME", t)]
  | Some s, None => [("TABLE_SCHEMA", s)]
  | None, _ => []
  end.
(** seeding.py:499-544 columns_query *)
Definition columns_query (wh : cls) (p : place) : res query :=
  src <- source_of wh p ;;
  Ok (Query (select_of wh) src (conditions p) (match wh with Snowflake => Some (Z.to_nat 10000) | _ => None end) (ending wh)).

(** seeding.py:546-592 table_query: its text; it has no condition on the table. *)
Definition table_query (wh : cls) (p : place) : res string :=
  let t body := Ok ("SELECT " ++ body ++ ending wh)%string in
  let cols := "table_catalog as table_database, table_schema as table_schema, table_name as table_name, " in
  match wh with
  | Snowflake => match given (p_database p) with
                 | Some d => t (cols ++ "table_owner as table_owner, table_type as table_type, bytes as table_size, created as table_created, "
                                ++ "last_altered as table_last_modified, row_count as table_row_count, comment as comment FROM "
                                ++ d ++ ".INFORMATION_SCHEMA.TABLES")%string
                 | None => Err ValueError
                 end
  | Druid | Trino => t ("TABLE_CATALOG as table_database, TABLE_SCHEMA as table_schema, TABLE_NAME as table_name, TABLE_TYPE as table_type "
                        ++ "FROM INFORMATION_SCHEMA.TABLES WHERE TABLE_SCHEMA not in ('sys', 'INFORMATION_SCHEMA', 'information_schema')")%string
  | Redshift | Postgres | SQLServer | AzureSynapse | DuckDB =>
      match given (p_database p) with
      | Some d => t (cols ++ "table_type as table_type FROM " ++ d
                     ++ ".INFORMATION_SCHEMA.TABLES WHERE table_schema not in ('pg_catalog', 'information_schema')")%string
      | None => Err ValueError
      end
  | Databricks => t (cols ++ "table_type as table_type, comment as comment FROM "
                     ++ match given (p_database p) with Some d => d ++ "." | None => "" end ++ "INFORMATION_SCHEMA.TABLES")%string
  | BigQuery => match given (p_database p), given (p_schema p) with
                | Some d, Some s => t (cols ++ "table_type as table_type, creation_time as table_created FROM `" ++ d ++ "." ++ s
                                       ++ "`.INFORMATION_SCHEMA.TABLES")%string
                | _, _ => Err ValueError
                end
  end.

(** The warehouse. A SQL literal: a quote inside it is written twice; the text must end with the closing quote. *)
Definition quote : ascii := "'"%char.
Fixpoint literal_body (s : string) : option string :=
  match s with
  | EmptyString => None
  | String c r =>
      if Ascii.eqb c quote
      then match r with
           | EmptyString => Some ""
           | String d r' => if Ascii.eqb d quote then option_map (String quote) (literal_body r') else None
           end
      else option_map (String c) (literal_body r)
  end.
Definition literal (s : string) : option string :=
  match s with String c r => if Ascii.eqb c quote then literal_body r else None | EmptyString => None end.

(** a row of INFORMATION_SCHEMA.COLUMNS with its database *)
Definition catalogue := list (string * col).
Definition in_source (home : string) (s : source) (e : string * col) : bool :=
  match s with
  | Own => String.eqb (fst e) home
  | OfDatabase d => String.eqb (fst e) d
  | OfDataset d sc => String.eqb (fst e) d && String.eqb (c_schema (snd e)) sc
  end.
Definition column_value (name : string) (c : col) : string := if String.eqb name "TABLE_SCHEMA" then c_schema c else c_table c.
Definition holds (c : col) (k : string * string) : bool := String.eqb (column_value (fst k) c) (snd k).
(** the literals of the conditions; a query with a literal that ends early is refused by the warehouse (or read as something else) *)
Fixpoint literals (l : list (string * string)) : option (list (string * string)) :=
  match l with
  | [] => Some []
  | (n, v) :: r => match literal ("'" ++ v ++ "'"), literals r with Some x, Some r' => Some ((n, x) :: r') | _, _ => None end
  end.
(** None: the warehouse does not run it *)
Definition run (home : string) (cat : catalogue) (q : query) : option (list col) :=
  match literals (q_where q) with
  | None => None
  | Some ks =>
      let rows := filter (fun c => forallb (holds c) ks) (map snd (filter (in_source home (q_source q)) cat)) in
      Some (match q_limit q with Some n => firstn n rows | None => rows end)
  end.

(** seeding.py:189-190 and 201-210: the rows the views are made from (Seed_Model.chosen keeps the schema and the table in any
    letter case). *)
Definition seen (wh : cls) (home : string) (cat : catalogue) (p : place) : res (option (list col)) :=
  q <- columns_query wh p ;; Ok (option_map (chosen (given (p_schema p)) (given (p_table p))) (run home cat q)).

(** seeding.py:224-231: the comment of a table, from the rows of the table query (schema, table, comment). No row at all: no
    comment. *)
Definition trow := (string * string * option string)%type.
Definition chosen_tables (p : place) (l : list trow) : list trow :=
  filter (fun r => match given (p_schema p) with Some s => String.eqb (lower (fst (fst r))) (lower s) | None => true end &&
                   match given (p_table p) with Some t => String.eqb (lower (snd (fst r))) (lower t) | None => true end) l.
Definition table_comment (p : place) (l : list trow) (table : string) : res (option string) :=
  match chosen_tables p l with
  | [] => Ok None
  | rows => match find (fun r => String.eqb (lower (snd (fst r))) (lower table)) rows with
            | Some r => Ok (snd r)
            | None => Err IndexError
            end
  end.

(** seeding.py:449-477: what counts the values of a column, with quote=True. *)
Definition backtick (s : string) : string := ("`" ++ s ++ "`")%string.
Definition dquote (s : string) : string := (dq ++ s ++ dq)%string.
Definition count_text (wh : cls) (column alias : string) : string :=
  let a := (alias ++ "_cardinality")%string in
  match wh with
  | Snowflake | DuckDB | Druid => ("APPROX_COUNT_DISTINCT( " ++ dquote column ++ " ) as " ++ dquote a)%string
  | Trino => ("APPROX_DISTINCT( " ++ dquote column ++ " ) as " ++ dquote a)%string
  | Redshift | Postgres => ("COUNT(DISTINCT " ++ dquote column ++ " ) as " ++ dquote a)%string
  | SQLServer | AzureSynapse => ("COUNT(DISTINCT cast(" ++ dquote column ++ " as VARCHAR(MAX))) as " ++ dquote a)%string
  | BigQuery => ("APPROX_COUNT_DISTINCT( TO_JSON_STRING(" ++ backtick column ++ ") ) as " ++ backtick a)%string
  | Databricks => ("APPROX_COUNT_DISTINCT( " ++ backtick column ++ " ) as " ++ backtick a)%string
  end.
(** seeding.py:435-497 as seeding calls it (no base of its own, no aliases). *)
Definition cardinalities_query (wh : cls) (db : option string) (columns : list string) (schema table : string) : string :=
  ("SELECT " ++ String.concat ", " (map (fun c => count_text wh c c) columns) ++ cardinality_from wh db schema table ++ ending wh)%string.

(** seeding.py:419-425: col.lower().rsplit("_cardinality", 1)[0]; a name without the separator is itself. *)
Fixpoint before_last (sep s : string) : option string :=
  match s with
  | EmptyString => None
  | String c r => match before_last sep r with
                  | Some h => Some (String c h)
                  | None => if starts_with sep s then Some "" else None
                  end
  end.
Definition counted_column (result_column : string) : string :=
  let c := lower result_column in match before_last "_cardinality" c with Some h => h | None => c end.

(** seeding.py:270-285: the model of the views, and the models written. A model is its name and its connection. *)
Definition model := (string * string)%type.
Definition get_model_name (models : list model) (connection : string) : res string :=
  match models with
  | [] => Ok "base_model"
  | [m] => Ok (fst m)
  | _ => match find (fun m => String.eqb (snd m) connection) models with Some m => Ok (fst m) | None => Err ValueError end
  end.
Definition make_models (models : list model) (connection : string) : list model :=
  match models with [] => [("base_model", connection)] | _ => [] end.

(** seeding.py:249-268: the folders written to and the project file afterwards. zp: the paths of the project file read, [] if
    there is none; exists_: zenlytic_project.yml is there. An empty list of paths has no first element. *)
Definition paths := list (string * list string).
Definition first_path (zp : paths) (key default : string) : res string :=
  match assoc key zp with
  | None => Ok default
  | Some (x :: _) => Ok x
  | Some [] => Err IndexError
  end.
Definition write_folders (zp : paths) : res (string * string) :=
  m <- first_path zp "model-paths" "models" ;; v <- first_path zp "view-paths" "views" ;; Ok (m, v).
Definition new_paths : paths := [("model-paths", ["models"]); ("view-paths", ["views"]); ("dashboard-paths", ["dashboards"])].
(** None: no file; Some []: an empty file, which exists *)
Definition project_after (models : list model) (zp : option paths) : option paths :=
  match zp with
  | Some z => Some z
  | None => match models with [] => Some new_paths | _ => None end
  end.
(** project_reader_metrics_layer.py:42-53 get_folders: a project file that is empty gives no folders. *)
Definition read_folders (root : string) (zp : option paths) (key : string) : res (list string) :=
  match zp with Some [] => Ok [] | _ => Files_Model.get_folders root zp key true end.
