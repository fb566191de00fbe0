(** C82, continued: the class, the arguments and the defaults a connection profile gets, and the profiles that are refused. *)
From Coq Require Import List String Ascii ZArith Bool Lia.
From Verif Require Import PyBase PyStr Connections_Model.
Import ListNotations.
Local Open Scope string_scope.
Local Open Scope list_scope.

(** ** Specification *)
(** The names of the warehouses, definitions.py:2-11 *)
Definition warehouses : list (string * cls) :=
  [("SNOWFLAKE", Snowflake); ("DATABRICKS", Databricks); ("REDSHIFT", Redshift); ("POSTGRES", Postgres); ("DUCK_DB", DuckDB);
   ("TRINO", Trino); ("DRUID", Druid); ("SQL_SERVER", SQLServer); ("AZURE_SYNAPSE", AzureSynapse); ("BIGQUERY", BigQuery)].
(** The arguments a profile must have *)
Definition needs (c : cls) : list string :=
  match c with
  | Snowflake => ["name"; "account"; "password"]
  | Databricks => ["name"; "host"; "http_path"]
  | Redshift => ["name"; "host"; "username"; "password"]
  | Postgres | DuckDB => ["name"; "host"; "user"; "password"]
  | Trino => ["name"; "host"; "user"; "database"]
  | Druid | SQLServer | AzureSynapse => ["name"; "host"]
  | BigQuery => ["name"]
  end.
(** What the connection has when the profile does not say *)
Definition defaults : list (cls * string * cval) :=
  [(Redshift, "port", CNum 5439); (Postgres, "port", CNum 5432); (DuckDB, "port", CNum 5432); (SQLServer, "port", CNum 1433);
   (AzureSynapse, "port", CNum 1433); (Trino, "port", CNum 8080); (Trino, "scheme", CStr "http"); (Trino, "schema", CNone);
   (Druid, "port", CNum 8082); (Druid, "path", CStr "/druid/v2/sql/"); (Druid, "scheme", CStr "http"); (Snowflake, "role", CNone);
   (Snowflake, "warehouse", CNone); (Snowflake, "database", CNone); (Redshift, "schema", CNone)].
(** Values that count as not given *)
Inductive empty : cval -> Prop := ENone : empty CNone | EText : empty (CStr "") | ENum : empty (CNum 0) | EDict : empty (CDict []).
Definition given (kw : kwargs) (k : string) (v : cval) : Prop := assoc k kw = Some v /\ ~ empty v.
Definition lacks (kw : kwargs) (k : string) : Prop := forall v, ~ given kw k v.

Lemma truthy_given v : truthy v = true <-> ~ empty v.
Proof.
  destruct v as [|s|z|d]; cbn [truthy].
  - split; [discriminate|intros H; destruct (H ENone)].
  - destruct (String.eqb_spec s "") as [->|N]; cbn [negb]; split; try discriminate; try reflexivity.
    + intros H. destruct (H EText).
    + intros _ E. inversion E. congruence.
  - destruct (Z.eqb_spec z 0) as [->|N]; cbn [negb]; split; try discriminate; try reflexivity.
    + intros H. destruct (H ENum).
    + intros _ E. inversion E. congruence.
  - destruct d as [|e d]; cbn [List.length Nat.eqb negb]; split; try discriminate; try reflexivity.
    + intros H. destruct (H EDict).
    + intros _ E. inversion E.
Qed.
Lemma param_given c kw k v : default c k = CNone -> (given kw k v <-> param c kw k = v /\ truthy v = true).
Proof.
  intros D. unfold given, param. rewrite truthy_given. destruct (assoc k kw) as [w|].
  - split; intros [A B]; split; congruence.
  - rewrite D. split; intros [A B]; [discriminate|]. subst v. destruct (B ENone).
Qed.
Lemma param_lacks c kw k : default c k = CNone -> lacks kw k -> truthy (param c kw k) = false.
Proof.
  intros D L. destruct (truthy (param c kw k)) eqn:T; [|reflexivity]. destruct (L (param c kw k)). apply (param_given c); [exact D|now split].
Qed.

Section Load.
  Variable json_loads : string -> option cval.
  Variable open_json : cval -> string -> res cval.
  Variable isabs : string -> bool.
  Notation load_connection := (load_connection json_loads open_json isabs).
  Notation construct := (construct json_loads open_json isabs).

  (** C82: the type of a profile, in any letter case, says which connection it is; a profile without type or with one that is not
      known is refused with KeyError. *)
  Theorem C82_types : forall kw,
    (forall t c, assoc "type" kw = Some (CStr t) -> In (upper t, c) warehouses -> load_connection kw = construct c kw)
    /\ (forall t, assoc "type" kw = Some (CStr t) -> (forall c, ~ In (upper t, c) warehouses) -> load_connection kw = Err KeyError)
    /\ (assoc "type" kw = None -> load_connection kw = Err KeyError)
    /\ (forall y, assoc "type" kw = Some y -> (forall t, y <> CStr t) -> load_connection kw = Err AttributeError).
  Proof.
    intros kw. unfold Connections_Model.load_connection. split; [|split; [|split]].
    - intros t c -> I. assert (class_lookup (upper t) = Some c) as ->; [|reflexivity].
      unfold warehouses in I. cbn [In] in I.
      repeat (destruct I as [I|I]; [inversion I; reflexivity|]). destruct I.
    - intros t -> N. destruct (class_lookup (upper t)) as [c|] eqn:L; [|reflexivity]. exfalso.
      unfold class_lookup in L. apply find_some in L. destruct L as [_ E]. apply String.eqb_eq in E. apply (N c). rewrite <- E.
      destruct c; cbn; tauto.
    - intros ->. reflexivity.
    - intros y -> N. destruct y; try reflexivity. destruct (N s eq_refl).
  Qed.
  (** C82: a profile without an argument the connection needs is refused with TypeError. *)
  Theorem C82_required : forall c kw k, In k (needs c) -> assoc k kw = None -> construct c kw = Err TypeError.
  Proof.
    intros c kw k I N. unfold Connections_Model.construct.
    assert (existsb (fun k => match assoc k kw with None => true | Some _ => false end) (required c) = true) as ->; [|reflexivity].
    apply existsb_exists. exists k. rewrite N. split; [|reflexivity]. destruct c; exact I.
  Qed.
  (** ... and the other arguments may be left out: only what is needed, and one user where there must be one, is enough. *)
  Theorem C82_enough : forall c kw, c <> BigQuery -> (forall k, In k (needs c) -> assoc k kw <> None) -> assoc "self" kw = None ->
    (c = Snowflake -> exists v, (given kw "user" v /\ lacks kw "username") \/ (lacks kw "user" /\ given kw "username" v)) ->
    (In c [Druid; SQLServer; AzureSynapse] -> lacks kw "user" \/ lacks kw "username") ->
    exists o, construct c kw = Ok o /\ o_cls o = c.
  Proof.
    intros c kw B H S U O. unfold Connections_Model.construct.
    assert (existsb (fun k => match assoc k kw with None => true | Some _ => false end) (required c) = false) as ->.
    { destruct (existsb _ (required c)) eqn:E; [|reflexivity]. apply existsb_exists in E. destruct E as (k & I & E).
      exfalso. apply (H k); [destruct c; exact I|]. destruct (assoc k kw); [discriminate|reflexivity]. }
    rewrite S. cbn [orb].
    assert (OU : In c [Druid; SQLServer; AzureSynapse] -> exists u, opt_user kw c = Ok u).
    { intros I. unfold opt_user. destruct (O I) as [L|L].
      - rewrite (param_lacks c kw "user") by (auto; cbn in I; repeat (destruct I as [<-|I]; [reflexivity|]); destruct I). cbn [andb]. destruct (truthy (param c kw "username")); eexists; reflexivity.
      - rewrite (param_lacks c kw "username") by (auto; cbn in I; repeat (destruct I as [<-|I]; [reflexivity|]); destruct I). rewrite andb_false_r.
        destruct (truthy (param c kw "user")); eexists; reflexivity. }
    destruct c; try (eexists; split; reflexivity); try congruence.
    1: { destruct (U eq_refl) as (v & [[G L]|[L G]]); unfold one_user.
         - rewrite (param_lacks Snowflake kw "username") by (reflexivity || exact L). rewrite andb_false_r.
           apply (param_given Snowflake) in G; [|reflexivity]. destruct G as [-> ->]. eexists. split; reflexivity.
         - rewrite (param_lacks Snowflake kw "user") by (reflexivity || exact L). cbn [andb].
           apply (param_given Snowflake) in G; [|reflexivity]. destruct G as [-> ->]. eexists. split; reflexivity. }
    all: destruct OU as [u ->]; [cbn; tauto|]; eexists; split; reflexivity.
  Qed.
  (** C82: Snowflake's user is given as user or as username; both, or neither, are refused. *)
  Theorem C82_snowflake_user : forall kw, assoc "self" kw = None -> (forall k, In k (needs Snowflake) -> assoc k kw <> None) ->
    (forall v, (given kw "user" v /\ lacks kw "username") \/ (lacks kw "user" /\ given kw "username" v) ->
       exists o, construct Snowflake kw = Ok o /\ attr o "username" = Ok v)
    /\ ((exists v w, given kw "user" v /\ given kw "username" w) \/ (lacks kw "user" /\ lacks kw "username") ->
       construct Snowflake kw = Err ArgumentError).
  Proof.
    intros kw S H. unfold Connections_Model.construct.
    assert (existsb (fun k => match assoc k kw with None => true | Some _ => false end) (required Snowflake) = false) as ->.
    { destruct (existsb _ (required Snowflake)) eqn:E; [|reflexivity]. apply existsb_exists in E. destruct E as (k & I & E).
      exfalso. apply (H k); [exact I|]. destruct (assoc k kw); [discriminate|reflexivity]. }
    rewrite S. cbn [orb]. unfold one_user. split.
    - intros v [[G L]|[L G]].
      + rewrite (param_lacks Snowflake kw "username") by (reflexivity || exact L). rewrite andb_false_r.
        apply (param_given Snowflake) in G; [|reflexivity]. destruct G as [-> ->]. eexists. split; reflexivity.
      + rewrite (param_lacks Snowflake kw "user") by (reflexivity || exact L). cbn [andb].
        apply (param_given Snowflake) in G; [|reflexivity]. destruct G as [-> ->]. eexists. split; reflexivity.
    - intros [(v & w & G & G')|[L L']].
      + apply (param_given Snowflake) in G; [|reflexivity]. apply (param_given Snowflake) in G'; [|reflexivity].
        destruct G as [-> ->], G' as [-> ->]. reflexivity.
      + rewrite (param_lacks Snowflake kw "username"), (param_lacks Snowflake kw "user") by (reflexivity || assumption). reflexivity.
  Qed.
  (** C82: what a profile does not say has its default; what it says is kept, empty or not. *)
  Theorem C82_defaults : forall c k v kw o, In (c, k, v) defaults -> construct c kw = Ok o ->
    attr o k = Ok (match assoc k kw with Some w => w | None => v end).
  Proof.
    intros c k v kw o I. unfold Connections_Model.construct. destruct (existsb _ _ || _); [discriminate|].
    unfold defaults in I. cbn [In] in I.
    repeat (destruct I as [I|I]; [inversion I; subst; clear I|]); [..|destruct I].
    all: try (intros E; injection E as <-; reflexivity).
    all: intros E; apply bind_ok in E; destruct E as (u & U & E); injection E as <-; try reflexivity.
    all: unfold opt_user in U; repeat match type of U with context [if ?b then _ else _] => destruct b end; try discriminate U; injection U as <-; reflexivity.
  Qed.
  (** C82: the credentials of BigQuery: a dict is taken as it is; a text is JSON, or else the path of a JSON file, absolute or below
      the directory of the profile; the keyfile is used only without credentials. *)
  Definition credentials (kw : kwargs) (v : cval) : Prop :=
    given kw "credentials" v \/ (lacks kw "credentials" /\ v = match assoc "keyfile" kw with Some w => w | None => CNone end).
  Theorem C82_credentials : forall kw v, credentials kw v ->
    creds_of json_loads open_json isabs kw =
      match v with
      | CDict d => Ok (CDict d)
      | CStr s => match json_loads s with
                  | Some w => Ok w
                  | None => if isabs s then open_json CNone s
                            else match assoc "directory" kw with Some d => open_json d s | None => Err KeyError end
                  end
      | _ => Err TypeError
      end.
  Proof.
    intros kw v H. unfold creds_of.
    assert ((if truthy (param BigQuery kw "credentials") then param BigQuery kw "credentials" else param BigQuery kw "keyfile") = v) as ->; [|reflexivity].
    destruct H as [G|[L ->]].
    - apply (param_given BigQuery) in G; [|reflexivity]. destruct G as [-> ->]. reflexivity.
    - now rewrite (param_lacks BigQuery kw "credentials") by (reflexivity || exact L).
  Qed.
  (** C82: the project of BigQuery is the one the credentials name; credentials without one are refused. *)
  Theorem C82_project : forall kw v, assoc "name" kw <> None -> assoc "self" kw = None ->
    creds_of json_loads open_json isabs kw = Ok v ->
    (forall d p, v = CDict d -> assoc "project_id" d = Some p -> exists o, construct BigQuery kw = Ok o /\ attr o "project_id" = Ok p /\ attr o "database" = Ok p /\ attr o "credentials" = Ok v)
    /\ (forall d, v = CDict d -> assoc "project_id" d = None -> construct BigQuery kw = Err KeyError)
    /\ ((forall d, v <> CDict d) -> construct BigQuery kw = Err TypeError).
  Proof.
    intros kw v N S C. unfold Connections_Model.construct. cbn [required existsb]. destruct (assoc "name" kw); [|congruence]. rewrite S, C. cbn [orb bind].
    split; [|split].
    - intros d p -> P. cbn [project_id]. rewrite P. cbn [bind]. eexists. split; [reflexivity|]. repeat split.
    - intros d -> P. cbn [project_id]. rewrite P. reflexivity.
    - intros NE. destruct v; try reflexivity. destruct (NE d eq_refl).
  Qed.
  (** C82: asking a connection for something it has not raises AttributeError. *)
  Theorem C82_user_unset : forall c kw o, In c [Druid; SQLServer; AzureSynapse] -> lacks kw "user" -> lacks kw "username" ->
    construct c kw = Ok o -> attr o "user" = Err AttributeError.
  Proof.
    intros c kw o I L L'. unfold Connections_Model.construct. destruct (existsb _ _ || _); [discriminate|].
    assert (OU : opt_user kw c = Ok []).
    { unfold opt_user. rewrite (param_lacks c kw "user"), (param_lacks c kw "username"); auto;
      cbn in I; repeat (destruct I as [<-|I]; [reflexivity|]); destruct I. }
    cbn [In] in I. destruct I as [<-|[<-|[<-|[]]]]; rewrite OU; cbn [bind]; intros E; injection E as <-; reflexivity.
  Qed.
End Load.
Print Assumptions C82_types.
Print Assumptions C82_required.
Print Assumptions C82_enough.
Print Assumptions C82_snowflake_user.
Print Assumptions C82_defaults.
Print Assumptions C82_credentials.
Print Assumptions C82_project.
Print Assumptions C82_user_unset.

(** ** Cases *)
Definition no_json' (_ : string) : option cval := None.
Definition no_file' (_ : cval) (_ : string) : res cval := Err KeyError.
Example C82_druid_case : exists o, load_connection no_json' no_file' (fun _ => false) [("type", CStr "druid"); ("name", CStr "d"); ("host", CStr "h"); ("scheme", CStr "")] = Ok o
  /\ attr o "port" = Ok (CNum 8082) /\ attr o "scheme" = Ok (CStr "") /\ attr o "user" = Err AttributeError.
Proof. eexists. split; [reflexivity|]. repeat split. Qed.
Example C82_snowflake_case : load_connection no_json' no_file' (fun _ => false)
  [("type", CStr "Snowflake"); ("name", CStr "s"); ("account", CStr "a"); ("password", CStr "p"); ("user", CStr ""); ("username", CNum 0)] = Err ArgumentError.
Proof. reflexivity. Qed.
