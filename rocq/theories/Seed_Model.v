(** Model of seeding a project from a warehouse: metrics_layer/cli/seeding.py seed, make_view,
    make_fields, clean_name, columns_query and column_cardinalities_query.

    The result of the columns query is a list of rows.  The ten tables of data types are one
    parameter (lookup), comments are optional texts, and the cardinalities returned by the warehouse are
    a list of column name and number. *)
From Coq Require Import List String Ascii ZArith Bool.
From Verif Require Import PyBase PyStr Connections_Model.
Import ListNotations.
Open Scope string_scope.
Open Scope list_scope.

(** One row of INFORMATION_SCHEMA.COLUMNS (seeding.py:499-544). *)
Record col := Col { c_schema : string; c_table : string; c_name : string; c_type : string; c_comment : option string }.

(** [a-zA-Z0-9\s_] on ASCII (\s: space, \t \n \v \f \r and the separators 28-31). *)
Definition is_space (c : ascii) : bool :=
  let n := nat_of_ascii c in (Nat.eqb n 32 || (Nat.leb 9 n && Nat.leb n 13) || (Nat.leb 28 n && Nat.leb n 31))%bool.
Definition is_word (c : ascii) : bool :=
  let n := nat_of_ascii c in
  ((Nat.leb 48 n && Nat.leb n 57) || (Nat.leb 65 n && Nat.leb n 90) || (Nat.leb 97 n && Nat.leb n 122) || Nat.eqb n 95)%bool.

Fixpoint keep (p : ascii -> bool) (s : string) : string :=
  match s with EmptyString => EmptyString | String c r => if p c then String c (keep p r) else keep p r end.

Fixpoint lstrip (s : string) : string :=
  match s with EmptyString => EmptyString | String c r => if is_space c then lstrip r else s end.
Fixpoint rstrip (s : string) : string :=
  match s with
  | EmptyString => EmptyString
  | String c r => match rstrip r with EmptyString => if is_space c then EmptyString else String c EmptyString | r' => String c r' end
  end.

Fixpoint replace_char (a b : ascii) (s : string) : string :=
  match s with EmptyString => EmptyString | String c r => String (if Ascii.eqb c a then b else c) (replace_char a b r) end.

(** seeding.py:712-715 clean_name. *)
Definition clean_name (txt : string) : string :=
  replace_char " " "_" (rstrip (lstrip (lower (keep (fun c => is_word c || is_space c) txt)))).

(** A field dict of make_fields (seeding.py:385-412). *)
Inductive kind := Dim | Group.
Record field := Field {
  sf_name : string; sf_sql : string; sf_description : option string; sf_kind : kind;
  sf_type : string; sf_datatype : option string; sf_searchable : option bool }.

(** The warehouses whose column names are quoted (seeding.py:369-380). *)
Definition quotes (c : cls) : bool :=
  match c with Druid | Trino | Snowflake | DuckDB | Postgres | Redshift | SQLServer | AzureSynapse => true | _ => false end.

Definition dq : string := String (ascii_of_nat 34) "".

Section Seed.
  Variable wh : cls.
  (** The data type lookup of the warehouse (seeding.py:46-180). *)
  Variable lookup : string -> option string.
  (** The default database is used (seeding.py:36), and the database. *)
  Variable other_database : bool.
  Variable database : string.

  (** seeding.py:369-383 the SQL of a field. *)
  Definition column_sql (c : col) : string :=
    ("${TABLE}." ++ (if quotes wh then dq ++ c_name c ++ dq else c_name c))%string.

  (** One round of the loop of make_fields (seeding.py:349-412), before the searchable tags. *)
  Definition make_field (c : col) : field :=
    let t := match lookup (c_type c) with Some t => t | None => "string" end in
    if mem t ["timestamp"; "date"; "datetime"]
    then Field (clean_name (c_name c)) (column_sql c) (c_comment c) Group "time" (Some t) None
    else Field (clean_name (c_name c)) (column_sql c) (c_comment c) Dim t None None.

  (** seeding.py:405-408: the columns whose cardinality is asked for. *)
  Definition candidates (cs : list col) : list string :=
    map c_name (filter (fun c => String.eqb (match lookup (c_type c) with Some t => t | None => "string" end) "string") cs).

  (** rsplit("_cardinality", 1)[0] of a result column, which was named column ++ "_cardinality"; the result
      columns are taken to be named so, in any letter case (seeding.py:419-425). *)
  Definition searchable_names (cards : list (string * Z)) : list string :=
    map (fun c => lower (fst c)) (filter (fun c => Z.ltb (snd c) 100) cards).

  (** The text of the SQL after its first dot, in lower case and without double quotes (seeding.py:428). *)
  Definition sql_column (f : field) : string :=
    let fix after (s : string) := match s with
                                  | EmptyString => EmptyString
                                  | String c r => if Ascii.eqb c "." then r else after r end in
    keep (fun c => negb (Ascii.eqb c (ascii_of_nat 34))) (lower (after (sf_sql f))).

  (** seeding.py:427-431. *)
  Definition tag (names : list string) (f : field) : field :=
    let b := if mem (sql_column f) names then Some true
             else match sf_kind f with
                  | Dim => if String.eqb (sf_type f) "string" then Some false else sf_searchable f
                  | Group => sf_searchable f
                  end in
    Field (sf_name f) (sf_sql f) (sf_description f) (sf_kind f) (sf_type f) (sf_datatype f) b.

  (** seeding.py:336-433 make_fields.  cards answers the cardinality query, run only when there are
      candidates. *)
  Definition make_fields (auto_tag : bool) (cards : list string -> list (string * Z)) (cs : list col) : list field :=
    let fields := map make_field cs in
    if auto_tag && negb (Nat.eqb (List.length (candidates cs)) 0)
    then map (tag (searchable_names (cards (candidates cs)))) fields
    else fields.

  Record view := View { sv_name : string; sv_table : string; sv_default_date : option string; sv_fields : list field }.

  (** seeding.py:303-319 sql_table_name. *)
  Definition sql_table_name (schema table : string) : string :=
    match wh with
    | Snowflake | Redshift | Postgres | SQLServer | AzureSynapse | DuckDB | Databricks =>
        if other_database then (database ++ "." ++ schema ++ "." ++ table)%string else (schema ++ "." ++ table)%string
    | Druid | Trino => (schema ++ "." ++ table)%string
    | BigQuery => ("`" ++ database ++ "." ++ schema ++ "." ++ table ++ "`")%string
    end.

  (** seeding.py:287-334 make_view (the description from the table comment is not modelled). *)
  Definition make_view (auto_tag : bool) (cards : list string -> list (string * Z)) (cs : list col) (table schema : string) : view :=
    let fields := make_fields auto_tag cards cs in
    View (clean_name table) (sql_table_name schema table)
         (option_map sf_name (find (fun f => match sf_kind f with Group => true | Dim => false end) fields)) fields.

  (** pandas unique(): each value once, in order of first appearance. *)
  Fixpoint unique (seen l : list string) : list string :=
    match l with
    | [] => []
    | x :: r => if mem x seen then unique seen r else x :: unique (x :: seen) r
    end.

  (** seeding.py:201-210: only the rows of the chosen schema and table, in any letter case. *)
  Definition chosen (schema table : option string) (rows : list col) : list col :=
    filter (fun c => match schema with Some s => String.eqb (lower (c_schema c)) (lower s) | None => true end &&
                     match table with Some t => String.eqb (lower (c_table c)) (lower t) | None => true end) rows.

  (** seeding.py:219-244: one view per table name; its rows are those whose table name is equal in any
      letter case, its schema that of the first of them. *)
  Definition seed_views (auto_tag : bool) (cards : string -> list string -> list (string * Z))
             (schema table : option string) (rows : list col) : list view :=
    let data := chosen schema table rows in
    map (fun t => let cs := filter (fun c => String.eqb (lower (c_table c)) (lower t)) data in
                  make_view auto_tag (cards t) cs t (match cs with c :: _ => c_schema c | [] => "" end))
        (unique [] (map c_table data)).

  (** The FROM of column_cardinalities_query (seeding.py:479-495): Druid is in the first set already. *)
  Definition cardinality_from (db : option string) (schema table : string) : string :=
    let d := match db with Some d => d | None => "None" end in
    match wh with
    | Snowflake | DuckDB | Druid | Redshift | Postgres | SQLServer | AzureSynapse | Databricks =>
        (" FROM " ++ d ++ "." ++ schema ++ "." ++ table)%string
    | Trino => ("FROM " ++ schema ++ "." ++ table)%string
    | BigQuery => (" FROM `" ++ d ++ "`.`" ++ schema ++ "`.`" ++ table ++ "`")%string
    end.
End Seed.

(** seeding.py:679-697 _init_project_file: the mode written inside a dbt project; project_loader.py:44-53
    _load_project: the modes accepted (the default is metrics_layer, github_repo.py:15-23). *)
Definition init_mode (in_dbt_project : bool) : option string := if in_dbt_project then Some "dbt" else None.
Definition accepted_mode (m : option string) : res unit :=
  match m with
  | None => Ok tt
  | Some m => if mem m ["metricflow"; "metrics_layer"] then Ok tt else Err TypeError
  end.
