(** C59: what was configured and is no secret is shown when a connection is printed (core/parse/connections.py:85-419). *)
From Coq Require Import List String Bool ZArith.
From Verif Require Import PyBase PyStr Connections_Model.
Import ListNotations.
Local Open Scope string_scope.
Local Open Scope list_scope.

(** The line printed for an argument of each class; a Trino connection is never printed (C59_trino_refuted). *)
Definition shown (c : cls) : list (string * string) :=
  match c with
  | Snowflake => [("name", "name"); ("account", "account"); ("user", "user"); ("user", "username"); ("database", "database");
                  ("schema", "schema"); ("warehouse", "warehouse"); ("role", "role")]
  | Databricks => [("name", "name"); ("host", "host"); ("http_path", "http_path"); ("username", "username");
                   ("database", "database"); ("schema", "schema")]
  | Redshift => [("name", "name"); ("host", "host"); ("port", "port"); ("username", "username"); ("database", "database"); ("schema", "schema")]
  | Postgres => [("name", "name"); ("host", "host"); ("port", "port"); ("username", "user"); ("database", "dbname"); ("schema", "schema")]
  | DuckDB => [("name", "name"); ("host", "host"); ("port", "port"); ("username", "user"); ("database", "database"); ("schema", "schema")]
  | Trino => []
  | Druid => [("name", "name"); ("host", "host"); ("port", "port"); ("user", "user"); ("user", "username"); ("path", "path"); ("scheme", "scheme")]
  | SQLServer | AzureSynapse => [("name", "name"); ("host", "host"); ("port", "port"); ("user", "user"); ("user", "username")]
  | BigQuery => [("name", "name")]
  end.

Lemma pick_has : forall order d k v, In k order -> assoc k d = Some v -> truthy v = true -> assoc k (pick order d) = Some v.
Proof.
  intros order d k v I A T. assert (N : is_none v = false) by (destruct v; [discriminate | reflexivity ..]).
  induction order as [|x r IH]; [destruct I|]. unfold pick. cbn [flat_map].
  destruct (String.eqb_spec k x) as [E|E].
  - subst x. rewrite A, N. cbn. now rewrite String.eqb_refl.
  - destruct I as [I|I]; [congruence|]. specialize (IH I).
    destruct (assoc x d) as [w|]; [destruct (is_none w)|]; cbn; try exact IH.
    destruct (String.eqb_spec k x); [congruence | exact IH].
Qed.

Lemma the_same {A} (x y : A) : Ok x = Ok y -> y = x.
Proof. now intros [= ->]. Qed.

Section Shown.
  Variable json_loads : string -> option cval.
  Variable open_json : cval -> string -> res cval.
  Variable isabs : string -> bool.
  Theorem C59_shown : forall c kw o d k a, construct json_loads open_json isabs c kw = Ok o -> printable_attributes o = Ok d ->
    In (k, a) (shown c) -> truthy (param c kw a) = true -> assoc k d = Some (param c kw a).
  Proof.
    intros c kw o d k a. unfold construct. destruct (existsb _ (required c) || _); [discriminate|].
    destruct c.
    1: unfold one_user.
    all: try (unfold opt_user).
    all: try (destruct (truthy (param _ kw "user")) eqn:U1; destruct (truthy (param _ kw "username")) eqn:U2; cbn [andb bind]; try discriminate).
    all: try (destruct (creds_of _ _ _ kw) as [cr|]; [|discriminate]; cbn [bind]; destruct (project_id cr) as [pid|]; [|discriminate]; cbn [bind]).
    all: intro C; injection C as <-.
    all: unfold printable_attributes; cbn -[pick param truthy]; rewrite ?U1, ?U2; unfold pop, set; cbn -[pick param truthy];
      repeat match goal with |- context [if truthy ?v then _ else _] => destruct (truthy v) eqn:?; cbn -[pick param truthy] end;
      intros D; try discriminate D; apply the_same in D; subst d; intros I T; cbn -[param truthy] in I;
      repeat (destruct I as [I|I]; [injection I as <- <-; try congruence;
        (apply pick_has; [cbn; tauto | reflexivity | exact T])|]);
      destruct I.
  Qed.
End Shown.

(** a DuckDB connection with its default port *)
Example C59_shown_example : exists o d,
  construct (fun _ => None) (fun _ _ => Err ValueError) (fun _ => false) DuckDB
    [("name", CStr "w"); ("host", CStr "h"); ("user", CStr "u"); ("password", CStr "p")] = Ok o /\
  printable_attributes o = Ok d /\ assoc "username" d = Some (CStr "u") /\ assoc "port" d = Some (CNum 5432).
Proof. do 2 eexists. repeat split. Qed.

Print Assumptions C59_shown.
