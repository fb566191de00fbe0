(** Model of the warehouse connections: metrics_layer/core/parse/connections.py (all classes),
    the part of metrics_layer/core/parse/project_loader.py that builds them, the connection
    listing of metrics_layer/core/query/query.py and the session a query runs in
    (metrics_layer/core/sql/query_runner.py).

    A connection object is the list of its attributes (reading an attribute never assigned is an
    AttributeError), a keyword dict an association list.  Values are None, strings, integers and
    string keyed dicts; other Python values are not modelled. *)
From Coq Require Import List String Ascii ZArith Bool.
From Verif Require Import PyBase PyStr JoinAs_Model.
Import ListNotations.
Open Scope string_scope.
Open Scope list_scope.

Inductive cval := CNone | CStr (s : string) | CNum (z : Z) | CDict (d : list (string * cval)).

(** Truth value of a Python object. *)
Definition truthy (v : cval) : bool :=
  match v with
  | CNone => false
  | CStr s => negb (String.eqb s "")
  | CNum z => negb (Z.eqb z 0)
  | CDict d => negb (Nat.eqb (List.length d) 0)
  end.

Definition is_none (v : cval) : bool := match v with CNone => true | _ => false end.

(** str.upper() on ASCII. *)
Fixpoint upper (s : string) : string :=
  match s with EmptyString => EmptyString | String c r => String (upper_ascii c) (upper r) end.

Notation kwargs := (list (string * cval)).

(** connection_class_lookup (connections.py:441-452): the class of each type name. *)
Inductive cls :=
| Snowflake | Databricks | Redshift | Postgres | DuckDB | Trino | Druid | SQLServer
| AzureSynapse | BigQuery.

(** definitions.py:2-11. *)
Definition type_name (c : cls) : string :=
  match c with
  | Snowflake => "SNOWFLAKE" | Databricks => "DATABRICKS" | Redshift => "REDSHIFT"
  | Postgres => "POSTGRES" | DuckDB => "DUCK_DB" | Trino => "TRINO" | Druid => "DRUID"
  | SQLServer => "SQL_SERVER" | AzureSynapse => "AZURE_SYNAPSE" | BigQuery => "BIGQUERY"
  end.

(** connections.py:441-452, the lookup by type name. *)
Definition class_lookup (t : string) : option cls :=
  find (fun c => String.eqb (type_name c) t)
       [Snowflake; Redshift; BigQuery; Postgres; Druid; SQLServer; AzureSynapse; DuckDB; Databricks; Trino].

(** The parameters without a default of each __init__
    (connections.py:33-45, 94-107, 147-157, 191-201, 215-225, 238-249, 283-294, 338-349, 394-396). *)
Definition required (c : cls) : list string :=
  match c with
  | Snowflake => ["name"; "account"; "password"]
  | Databricks => ["name"; "host"; "http_path"]
  | Redshift => ["name"; "host"; "username"; "password"]
  | Postgres => ["name"; "host"; "user"; "password"]
  | DuckDB => ["name"; "host"; "user"; "password"]
  | Trino => ["name"; "host"; "user"; "database"]
  | Druid => ["name"; "host"]
  | SQLServer | AzureSynapse => ["name"; "host"]
  | BigQuery => ["name"]
  end.

(** The defaults that are not None (same lines). *)
Definition default (c : cls) (k : string) : cval :=
  match c with
  | Redshift => if String.eqb k "port" then CNum 5439 else CNone
  | Postgres | DuckDB => if String.eqb k "port" then CNum 5432 else CNone
  | Trino => if String.eqb k "port" then CNum 8080 else if String.eqb k "scheme" then CStr "http" else CNone
  | Druid => if String.eqb k "port" then CNum 8082
             else if String.eqb k "path" then CStr "/druid/v2/sql/"
             else if String.eqb k "scheme" then CStr "http" else CNone
  | SQLServer | AzureSynapse => if String.eqb k "port" then CNum 1433 else CNone
  | _ => CNone
  end.

(** The value a parameter gets when the class is called with keyword arguments only, as
    ProjectLoader.load_connections does (project_loader.py:122). *)
Definition param (c : cls) (kw : kwargs) (k : string) : cval :=
  match assoc k kw with Some v => v | None => default c k end.

Record obj := Obj { o_cls : cls; o_attrs : list (string * cval) }.

(** Attribute access. *)
Definition attr (o : obj) (k : string) : res cval :=
  match assoc k (o_attrs o) with Some v => Ok v | None => Err AttributeError end.

(** The user / username choice of Snowflake (connections.py:48-59): exactly one must be given. *)
Definition one_user (kw : kwargs) (c : cls) : res cval :=
  if truthy (param c kw "user") && truthy (param c kw "username") then Err ArgumentError
  else if truthy (param c kw "username") then Ok (param c kw "username")
  else if truthy (param c kw "user") then Ok (param c kw "user")
  else Err ArgumentError.

(** The user / username choice of Druid and SQL Server (connections.py:299-307, 354-362): with
    neither the attribute is never assigned. *)
Definition opt_user (kw : kwargs) (c : cls) : res (list (string * cval)) :=
  if truthy (param c kw "user") && truthy (param c kw "username") then Err ArgumentError
  else if truthy (param c kw "username") then Ok [("user", param c kw "username")]
  else if truthy (param c kw "user") then Ok [("user", param c kw "user")]
  else Ok [].

Section WithFiles.
  (** json.loads of a text (None: JSONDecodeError), and opening and parsing the JSON file at a path
      built from the directory argument and the text (connections.py:421-438); both external. *)
  Variable json_loads : string -> option cval.
  Variable open_json : cval -> string -> res cval.
  Variable isabs : string -> bool.

  (** connections.py:421-438 BigQueryConnection._convert_json_if_needed. *)
  Definition convert_json (creds : cval) (kw : kwargs) : res cval :=
    match creds with
    | CDict d => Ok (CDict d)
    | CStr s =>
        match json_loads s with
        | Some v => Ok v
        | None =>
            if isabs s then open_json CNone s
            else match assoc "directory" kw with
                 | Some d => open_json d s
                 | None => Err KeyError
                 end
        end
    | _ => Err TypeError
    end.

  (** d["project_id"]: a string index into anything but a dict is a TypeError. *)
  Definition project_id (creds : cval) : res cval :=
    match creds with
    | CDict d => match assoc "project_id" d with Some v => Ok v | None => Err KeyError end
    | _ => Err TypeError
    end.

  (** The credentials BigQuery reads (connections.py:400-401). *)
  Definition creds_of (kw : kwargs) : res cval :=
    let p := param BigQuery kw in
    convert_json (if truthy (p "credentials") then p "credentials" else p "keyfile") kw.

  (** The __init__ bodies.  A missing required argument, or an argument called self, is a TypeError.
      AzureSynapseConnection only inherits SQLServerConnection.__init__ (connections.py:388-390), so
      it assigns the type of SQL Server. *)
  Definition construct (c : cls) (kw : kwargs) : res obj :=
    let p := param c kw in
    if existsb (fun k => match assoc k kw with None => true | Some _ => false end) (required c)
       || match assoc "self" kw with Some _ => true | None => false end
    then Err TypeError
    else
      match c with
      | Snowflake =>
          u <- one_user kw c ;;
          Ok (Obj c [("type", CStr "SNOWFLAKE"); ("name", p "name"); ("account", p "account");
                     ("username", u); ("password", p "password"); ("role", p "role");
                     ("warehouse", p "warehouse"); ("database", p "database"); ("schema", p "schema")])
      | Databricks =>
          Ok (Obj c [("type", CStr "DATABRICKS"); ("name", p "name"); ("host", p "host");
                     ("http_path", p "http_path"); ("username", p "username");
                     ("password", p "password");
                     ("personal_access_token", p "personal_access_token");
                     ("client_id", p "client_id"); ("client_secret", p "client_secret");
                     ("database", p "database"); ("schema", p "schema")])
      | Redshift =>
          Ok (Obj c [("type", CStr "REDSHIFT"); ("name", p "name"); ("host", p "host");
                     ("port", p "port"); ("username", p "username"); ("password", p "password");
                     ("database", p "database"); ("schema", p "schema")])
      | Postgres =>
          Ok (Obj c [("type", CStr "POSTGRES"); ("name", p "name"); ("host", p "host");
                     ("port", p "port"); ("user", p "user"); ("username", p "user");
                     ("password", p "password"); ("database", p "dbname"); ("dbname", p "dbname");
                     ("schema", p "schema")])
      | DuckDB =>
          Ok (Obj c [("type", CStr "DUCK_DB"); ("name", p "name"); ("host", p "host");
                     ("port", p "port"); ("user", p "user"); ("username", p "user");
                     ("password", p "password"); ("database", p "database");
                     ("schema", p "schema")])
      | Trino =>
          Ok (Obj c [("type", CStr "TRINO"); ("name", p "name"); ("host", p "host");
                     ("user", p "user"); ("port", p "port"); ("auth", p "auth");
                     ("scheme", p "scheme"); ("database", p "database"); ("schema", p "schema")])
      | Druid =>
          u <- opt_user kw c ;;
          Ok (Obj c ([("type", CStr "DRUID"); ("name", p "name"); ("host", p "host");
                      ("port", p "port")] ++ u ++
                     [("password", p "password"); ("path", p "path"); ("scheme", p "scheme");
                      ("database", CNone); ("schema", CNone)]))
      | SQLServer | AzureSynapse =>
          u <- opt_user kw c ;;
          Ok (Obj c ([("type", CStr "SQL_SERVER"); ("name", p "name"); ("host", p "host");
                      ("port", p "port")] ++ u ++
                     [("password", p "password"); ("database", p "database");
                      ("schema", p "schema")]))
      | BigQuery =>
          cr <- creds_of kw ;;
          pid <- project_id cr ;;
          Ok (Obj c [("type", CStr "BIGQUERY"); ("name", p "name"); ("schema", p "schema");
                     ("credentials", cr); ("project_id", pid); ("database", pid)])
      end.

  (** project_loader.py:114-124 ProjectLoader.load_connections on raw dicts: the class is looked up
      by the upper-cased type and called with the whole dict. *)
  Definition load_connection (kw : kwargs) : res obj :=
    match assoc "type" kw with
    | None => Err KeyError
    | Some (CStr t) =>
        match class_lookup (upper t) with
        | Some c => construct c kw
        | None => Err KeyError
        end
    | Some _ => Err AttributeError
    end.

  Definition load_connections (l : list kwargs) : res (list obj) := mapM load_connection l.
End WithFiles.

(** A dict display whose values are attribute reads. *)
Definition reads (o : obj) (l : list (string * string)) : res (list (string * cval)) :=
  mapM (fun ka => v <- attr o (snd ka) ;; Ok (fst ka, v)) l.

(** [if self.a: base[k] = self.a] for each pair in turn. *)
Definition reads_if (o : obj) (l : list (string * string)) : res (list (string * cval)) :=
  concatM (fun ka => v <- attr o (snd ka) ;; Ok (if truthy v then [(fst ka, v)] else [])) l.

(** The two parts of each to_dict: the unconditional entries and those added when truthy
    (connections.py:66-83, 120-136, 167-180, 260-272, 314-327, 367-378, 405-412). *)
Definition dict_base (c : cls) : list (string * string) :=
  match c with
  | Snowflake => [("name", "name"); ("user", "username"); ("password", "password");
                  ("account", "account"); ("type", "type")]
  | Databricks => [("name", "name"); ("host", "host"); ("http_path", "http_path");
                   ("username", "username"); ("password", "password");
                   ("personal_access_token", "personal_access_token");
                   ("client_id", "client_id"); ("client_secret", "client_secret"); ("type", "type")]
  | Redshift | Postgres | DuckDB =>
      [("name", "name"); ("host", "host"); ("port", "port"); ("username", "username");
       ("password", "password"); ("type", "type")]
  | Trino => [("name", "name"); ("host", "host"); ("port", "port"); ("scheme", "scheme"); ("type", "type")]
  | Druid => [("name", "name"); ("host", "host"); ("port", "port"); ("path", "path");
              ("scheme", "scheme"); ("type", "type")]
  | SQLServer | AzureSynapse => [("name", "name"); ("host", "host"); ("port", "port"); ("type", "type")]
  | BigQuery => [("name", "name"); ("credentials", "credentials"); ("project_id", "project_id"); ("type", "type")]
  end.

Definition dict_extra (c : cls) : list (string * string) :=
  match c with
  | Snowflake => [("warehouse", "warehouse"); ("database", "database"); ("schema", "schema"); ("role", "role")]
  | Databricks | Redshift | Postgres | DuckDB => [("database", "database"); ("schema", "schema")]
  | Trino => [("user", "user"); ("auth", "auth")]
  | Druid | SQLServer | AzureSynapse => [("user", "user"); ("password", "password")]
  | BigQuery => []
  end.

Definition to_dict (o : obj) : res (list (string * cval)) :=
  b <- reads o (dict_base (o_cls o)) ;; e <- reads_if o (dict_extra (o_cls o)) ;; Ok (b ++ e).

(** dict.pop(key) without a default. *)
Definition pop (k : string) (d : list (string * cval)) : res (list (string * cval)) :=
  match assoc k d with
  | None => Err KeyError
  | Some _ => Ok (filter (fun e => negb (String.eqb k (fst e))) d)
  end.

(** d[k] = v. *)
Definition set (k : string) (v : cval) (d : list (string * cval)) : list (string * cval) :=
  match assoc k d with
  | Some _ => map (fun e => if String.eqb k (fst e) then (k, v) else e) d
  | None => d ++ [(k, v)]
  end.

(** The key each printable_attributes removes, and its sort_order. *)
Definition popped (c : cls) : string :=
  match c with BigQuery => "credentials" | _ => "password" end.

Definition sort_order (c : cls) : list string :=
  match c with
  | Snowflake => ["name"; "type"; "account"; "user"; "database"; "schema"; "warehouse"; "role"]
  | Databricks => ["name"; "type"; "host"; "http_path"; "username"; "database"; "schema"]
  | Redshift | Postgres | DuckDB => ["name"; "type"; "host"; "port"; "username"; "database"; "schema"]
  | Trino => ["name"; "type"; "host"; "port"; "user"; "database"; "scheme"]
  | Druid => ["name"; "type"; "host"; "port"; "user"; "path"; "scheme"]
  | SQLServer | AzureSynapse => ["name"; "type"; "host"; "port"; "user"]
  | BigQuery => ["name"; "type"; "project_id"]
  end.

(** {key: d.get(key) for key in order if d.get(key) is not None}. *)
Definition pick (order : list string) (d : list (string * cval)) : list (string * cval) :=
  flat_map (fun k => match assoc k d with
                     | Some v => if is_none v then [] else [(k, v)]
                     | None => []
                     end) order.

(** printable_attributes of every class (connections.py:85-90, 138-143, 182-187, 274-279, 329-334,
    380-385, 414-419), what the show command of the CLI prints (cli_commands.py:227-236). *)
Definition printable_attributes (o : obj) : res (list (string * cval)) :=
  d <- to_dict o ;; d' <- pop (popped (o_cls o)) d ;; n <- attr o "name" ;;
  Ok (pick (sort_order (o_cls o)) (set "name" n d')).

(** The connection_lookup of the loaded project (project_loader.py:66), a dict comprehension: the
    last connection of a name wins.  It decides the dialect of a field's SQL (field.py:2661). *)
Definition connection_lookup (cs : list (string * string)) (name : string) : option string :=
  assoc name (rev cs).

(** query.py:85-86 MetricsLayerConnection.get_connection: the first connection of that name (the
    resolvers look it up the same way). *)
Definition get_connection (cs : list (string * string)) (name : string) : option string :=
  assoc name cs.

(** ** The session a query runs in (query_runner.py) *)

(** query_runner.py:141-150 _get_redshift_connection: the attributes passed to the driver. *)
Definition redshift_session (o : obj) : res (list (string * cval)) :=
  reads o [("host", "host"); ("port", "port"); ("database", "database"); ("user", "username");
           ("password", "password")].

(** query_runner.py:125-132 _get_snowflake_connection. *)
Definition snowflake_session (o : obj) : res (list (string * cval)) :=
  reads o [("account", "account"); ("user", "username"); ("password", "password"); ("role", "role")].

(** query_runner.py:161-163 the URL of _get_postgres_connection. *)
Definition postgres_url (user password host port database : string) : string :=
  ("postgresql://" ++ user ++ ":" ++ password ++ "@" ++ host ++ ":" ++ port ++ "/" ++ database)%string.
