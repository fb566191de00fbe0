(** Running a query: QueryRunner (core/sql/query_runner.py:31-122 and 158-171), as the sequence of calls it makes of a
    driver.  Any call may fail: [fail e n] says whether the n-th call, [e], raises; the theorems hold for every [fail]. *)
From Coq Require Import List String Ascii Bool Arith ZArith.
From Verif Require Import PyBase PyStr JoinAs_Model Connections_Model.
Import ListNotations.
Local Open Scope string_scope.
Local Open Scope list_scope.

(** ConnectionType, core/parse/connections.py:14-24 *)
Inductive warehouse_type := Snowflake | BigQuery | Redshift | Postgres | Druid | SqlServer | AzureSynapse | DuckDb | Databricks | Trino.
Definition same_type (a b : warehouse_type) : bool :=
  match a, b with
  | Snowflake, Snowflake | BigQuery, BigQuery | Redshift, Redshift | Postgres, Postgres | Druid, Druid | SqlServer, SqlServer
  | AzureSynapse, AzureSynapse | DuckDb, DuckDb | Databricks, Databricks | Trino, Trino => true
  | _, _ => false
  end.
(** connection_class_lookup, connections.py:441-452: the types a connection can have *)
Definition all_types : list warehouse_type := [Snowflake; Redshift; BigQuery; Postgres; Druid; SqlServer; AzureSynapse; DuckDb; Databricks; Trino].
(** The attributes of a connection that are read; the others only reach the driver (Connections_Model.v) *)
Record connection := Connection { k_type : warehouse_type; k_warehouse : option string; k_database : option string; k_schema : option string }.
(** A call of a driver.  [Connects] has the timeout given when connecting, in seconds for Redshift and in milliseconds for
    Postgres; [Executes] the text and the timeout given with it, in seconds. *)
Inductive event := Connects (timeout : option Z) | Setup (text : string) | OpenCursor | Executes (text : string) (timeout : option Z) | Fetches | Closes.
(** What is returned: the rows of a text that was executed, or a cursor, with the text it has executed *)
Inductive answer := Rows (of : string) | RawCursor (executed : option string).
Inductive fault := FUnsupported | FCall (e : event).
Inductive out (A : Type) := Done (a : A) | Raised (f : fault).
Arguments Done {A} a. Arguments Raised {A} f.

(** str truthiness *)
Definition given (s : option string) : option string := match s with Some "" => None | x => x end.
(** _run_snowflake_pre_queries, 112-119: the text executed *)
Definition pre_text (c : connection) (warehouse_only : bool) : string :=
  ((match given (k_warehouse c) with Some w => "USE WAREHOUSE " ++ w ++ ";" | None => "" end) ++
   (match given (k_database c) with Some d => if warehouse_only then "" else "USE DATABASE """ ++ upper d ++ """;" | None => "" end) ++
   (match given (k_schema c) with Some s => if warehouse_only then "" else "USE SCHEMA """ ++ upper s ++ """;" | None => "" end))%string.

Section Run.
  Variable fail : event -> nat -> bool.
  (** the calls made, in order *)
  Definition M (A : Type) := list event -> out A * list event.
  Definition ret {A} (a : A) : M A := fun t => (Done a, t).
  Definition andthen {A B} (m : M A) (k : A -> M B) : M B := fun t => match m t with (Done a, t') => k a t' | (Raised f, t') => (Raised f, t') end.
  Notation "'do' x <- m ; k" := (andthen m (fun x => k)) (at level 61, x name, m at next level, right associativity).
  Definition make (e : event) : M unit := fun t => (if fail e (List.length t) then Raised (FCall e) else Done tt, t ++ [e]).

  Record options := Options { o_timeout : Z; o_raw : bool; o_pre : bool; o_start : bool }.
  (** _run_snowflake_pre_queries, 112-122 *)
  Definition pre_queries (c : connection) (warehouse_only : bool) : M unit :=
    let text := pre_text c warehouse_only in if String.eqb text "" then ret tt else make (Setup text).
  (** _run_snowflake_query, 58-73.  The rows are those of the cursor, which executed the text. *)
  Definition run_snowflake (q : string) (c : connection) (o : options) : M answer :=
    do _ <- make (Connects None) ;
    do _ <- (if o_pre o then pre_queries c false else if o_start o then pre_queries c true else ret tt) ;
    do _ <- make OpenCursor ;
    do _ <- make (Executes q (Some (o_timeout o))) ;
    do _ <- make Closes ;
    if o_raw o then ret (RawCursor (Some q)) else do _ <- make Fetches ; ret (Rows q).
  (** _run_redshift_query, 75-86 *)
  Definition run_redshift (q : string) (c : connection) (o : options) : M answer :=
    do _ <- make (Connects (Some (o_timeout o))) ;
    do _ <- make OpenCursor ;
    do _ <- make (Executes q None) ;
    do _ <- make Closes ;
    if o_raw o then ret (RawCursor (Some q)) else do _ <- make Fetches ; ret (Rows q).
  (** _run_postgres_query, 88-99 and the timeout of _get_postgres_connection, 165-169; pandas.read_sql executes and fetches *)
  Definition run_postgres (q : string) (c : connection) (o : options) : M answer :=
    do _ <- make (Connects (if Z.eqb (o_timeout o) 0 then None else Some (o_timeout o * 1000)%Z)) ;
    if o_raw o then do _ <- make OpenCursor ; ret (RawCursor None)
    else
      do _ <- make (Executes q None) ;
      do _ <- make Fetches ;
      do _ <- make Closes ;
      ret (Rows q).
  (** _run_bigquery_query, 101-110 *)
  Definition run_bigquery (q : string) (c : connection) (o : options) : M answer :=
    do _ <- make (Connects None) ;
    do _ <- make (Executes q (Some (o_timeout o))) ;
    do _ <- make Closes ;
    if o_raw o then ret (RawCursor (Some q)) else do _ <- make Fetches ; ret (Rows q).
  (** _query_runner_lookup, 35-40 *)
  Definition runners : list (warehouse_type * (string -> connection -> options -> M answer)) :=
    [(Snowflake, run_snowflake); (BigQuery, run_bigquery); (Redshift, run_redshift); (Postgres, run_postgres)].
  Definition runner (k : warehouse_type) : option (string -> connection -> options -> M answer) :=
    match List.find (fun x => same_type (fst x) k) runners with Some x => Some (snd x) | None => None end.
  (** __init__, 32-45, and run_query, 48-57; [start] is the empty sequence *)
  Definition run_query (q : string) (c : connection) (o : options) : out answer * list event :=
    match runner (k_type c) with Some r => r q c o [] | None => (Raised FUnsupported, []) end.
End Run.
(** the defaults of run_query, 48-56 *)
Definition default_options : options := Options 180 false true true.
