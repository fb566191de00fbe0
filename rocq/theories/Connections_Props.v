(** C59: printing a connection never reveals a secret, and shows what was configured. *)
From Coq Require Import List String Ascii ZArith Bool Lia.
From Verif Require Import PyBase PyStr Connections_Model.
Import ListNotations.
Open Scope string_scope.
Open Scope list_scope.

(** ** Specification *)

(** The arguments that must stay secret.  The credentials of BigQuery (whose project id is shown)
    are treated separately. *)
Definition secrets : list string :=
  ["password"; "personal_access_token"; "client_id"; "client_secret"; "auth"; "credentials"; "keyfile"; "directory"].

(** Two configurations that only differ in secrets. *)
Definition same_public (kw1 kw2 : list (string * cval)) : Prop :=
  forall k, ~ In k secrets -> assoc k kw1 = assoc k kw2.

(** The arguments a printed key may show. *)
Definition sources (c : cls) (k : string) : list string :=
  match c with
  | Snowflake | Druid | SQLServer | AzureSynapse => if String.eqb k "user" then ["user"; "username"] else [k]
  | Postgres => if String.eqb k "username" then ["user"] else if String.eqb k "database" then ["dbname"] else [k]
  | DuckDB => if String.eqb k "username" then ["user"] else [k]
  | _ => [k]
  end.

Lemma assoc_app {B} k (a b : list (string * B)) :
  assoc k (a ++ b) = match assoc k a with Some v => Some v | None => assoc k b end.
Proof. induction a as [|[k' v] a IH]; [reflexivity|]. cbn. destruct (String.eqb k k'); [reflexivity|exact IH]. Qed.

Lemma assoc_pick order d k v : assoc k (pick order d) = Some v -> assoc k d = Some v.
Proof.
  induction order as [|o order IH]; [discriminate|]. cbn [pick flat_map]. rewrite assoc_app.
  destruct (assoc o d) as [w|] eqn:E; [|exact IH]. destruct (is_none w); [exact IH|]. cbn.
  destruct (String.eqb_spec k o) as [->|]; [|exact IH]. intros [= <-]. exact E.
Qed.

Lemma ok_inj {A} (x y : A) : Ok x = Ok y -> y = x.
Proof. intros [= ->]. reflexivity. Qed.

Section Props.
  Variable json_loads : string -> option cval.
  Variable open_json : cval -> string -> res cval.
  Variable isabs : string -> bool.
  Notation construct := (construct json_loads open_json isabs).
  Notation creds_of := (creds_of json_loads open_json isabs).
  Notation load_connection := (load_connection json_loads open_json isabs).

  Definition missing (c : cls) (kw : list (string * cval)) : bool :=
    existsb (fun k => match assoc k kw with None => true | Some _ => false end) (required c)
    || match assoc "self" kw with Some _ => true | None => false end.

  Lemma construct_class c kw o : construct c kw = Ok o -> o_cls o = c.
  Proof.
    unfold Connections_Model.construct. destruct (_ || _); [discriminate|].
    destruct c; try (intros [= <-]; reflexivity).
    - destruct (one_user kw Snowflake); [|discriminate]. intros [= <-]. reflexivity.
    - destruct (opt_user kw Druid); [|discriminate]. intros [= <-]. reflexivity.
    - destruct (opt_user kw SQLServer); [|discriminate]. intros [= <-]. reflexivity.
    - destruct (opt_user kw AzureSynapse); [|discriminate]. intros [= <-]. reflexivity.
    - destruct (creds_of kw) as [cr|]; [|discriminate]. cbn [bind]. destruct (project_id cr); [|discriminate].
      intros [= <-]. reflexivity.
  Qed.

  Local Arguments param : simpl never.
  Local Arguments truthy : simpl never.
  Local Arguments is_none : simpl never.

  Lemma same_param c kw1 kw2 : same_public kw1 kw2 -> forall k, ~ In k secrets -> param c kw1 k = param c kw2 k.
  Proof. intros H k N. unfold param. rewrite (H k N). reflexivity. Qed.

  Lemma same_one_user c kw1 kw2 : same_public kw1 kw2 -> one_user kw1 c = one_user kw2 c.
  Proof.
    intros H. unfold one_user.
    rewrite !(same_param c kw1 kw2 H "user"), !(same_param c kw1 kw2 H "username");
      [reflexivity | cbv; intuition discriminate ..].
  Qed.
  Lemma same_opt_user c kw1 kw2 : same_public kw1 kw2 -> opt_user kw1 c = opt_user kw2 c.
  Proof.
    intros H. unfold opt_user.
    rewrite !(same_param c kw1 kw2 H "user"), !(same_param c kw1 kw2 H "username");
      [reflexivity | cbv; intuition discriminate ..].
  Qed.

  Lemma opt_user_shape c kw u : opt_user kw c = Ok u ->
    u = [] \/ exists w, u = [("user", w)] /\ truthy w = true /\ In w [param c kw "user"; param c kw "username"].
  Proof.
    unfold opt_user. destruct (truthy (param c kw "user")) eqn:A, (truthy (param c kw "username")) eqn:B; cbn [andb];
      intros [= <-]; [right | right | left; reflexivity]; eexists; (split; [reflexivity|]); split; try eassumption; cbn; tauto.
  Qed.

  Lemma one_user_shape c kw u : one_user kw c = Ok u -> In u [param c kw "user"; param c kw "username"].
  Proof.
    unfold one_user. destruct (truthy (param c kw "user")), (truthy (param c kw "username")); cbn [andb];
      intros [= <-]; cbn; tauto.
  Qed.

  Ltac crush :=
    cbn; unfold pop, set; cbn;
    repeat match goal with
           | |- context [if truthy ?v then _ else _] => destruct (truthy v) eqn:?; cbn
           end;
    intros; repeat match goal with H : Err _ = Ok _ |- _ => discriminate H | H : Ok _ = Ok _ |- _ => injection H as <- end;
    try reflexivity.

  Ltac pub H c kw1 kw2 k := try rewrite !(same_param c kw1 kw2 H k) by (cbv; intuition discriminate).

  Ltac pubs :=
    match goal with
    | E : same_public ?kw1 ?kw2 |- context [param ?c ?kw "name"] =>
        pub E c kw1 kw2 "name"; pub E c kw1 kw2 "host"; pub E c kw1 kw2 "port"; pub E c kw1 kw2 "account";
        pub E c kw1 kw2 "http_path"; pub E c kw1 kw2 "user"; pub E c kw1 kw2 "username";
        pub E c kw1 kw2 "database"; pub E c kw1 kw2 "dbname"; pub E c kw1 kw2 "schema";
        pub E c kw1 kw2 "warehouse"; pub E c kw1 kw2 "role"; pub E c kw1 kw2 "path"; pub E c kw1 kw2 "scheme"
    end.

  (** Changing only secrets never changes what is printed. *)
  Theorem C59_no_secret c kw1 kw2 o1 o2 d1 d2 :
    c <> BigQuery -> same_public kw1 kw2 ->
    construct c kw1 = Ok o1 -> construct c kw2 = Ok o2 ->
    printable_attributes o1 = Ok d1 -> printable_attributes o2 = Ok d2 -> d1 = d2.
  Proof.
    intros NB E. unfold Connections_Model.construct.
    destruct (existsb _ (required c) || _); [discriminate|].
    destruct (existsb _ (required c) || _); [discriminate|].
    destruct c; try (exfalso; apply NB; reflexivity); clear NB.
    all: try rewrite (same_one_user _ _ _ E); try rewrite (same_opt_user _ _ _ E).
    1: destruct (one_user kw2 Snowflake) as [u|]; [|discriminate]; cbn [bind].
    all: try (destruct (opt_user kw2 _) as [u|] eqn:U; [|discriminate]; cbn [bind]).
    all: intros [= <-] [= <-].
    all: try (apply opt_user_shape in U; destruct U as [-> | [w [-> U]]]).
    all: pubs.
    all: crush.
  Qed.

  (** Of BigQuery's credentials only the project id is printed. *)
  Theorem C59_bigquery kw o :
    construct BigQuery kw = Ok o ->
    exists cr pid, creds_of kw = Ok cr /\ project_id cr = Ok pid /\
      printable_attributes o =
        Ok (flat_map (fun kv : string * cval => match snd kv with CNone => [] | _ => [kv] end)
                     [("name", param BigQuery kw "name"); ("type", CStr "BIGQUERY"); ("project_id", pid)]).
  Proof.
    unfold Connections_Model.construct. destruct (existsb _ _ || _); [discriminate|].
    destruct (creds_of kw) as [cr|] eqn:A; [|discriminate]. cbn [bind].
    destruct (project_id cr) as [pid|] eqn:B; [|discriminate]. intros [= <-].
    exists cr, pid. split; [reflexivity|]. split; [exact B|].
    destruct (param BigQuery kw "name"); destruct pid; reflexivity.
  Qed.

  (** Six of the ten classes can always be printed. *)
  Theorem C59_prints_partial c kw o :
    In c [Snowflake; Databricks; Redshift; Postgres; DuckDB; BigQuery] ->
    construct c kw = Ok o -> exists d, printable_attributes o = Ok d.
  Proof.
    intros I. unfold Connections_Model.construct. destruct (existsb _ (required c) || _); [discriminate|].
    cbn in I. repeat (destruct I as [<- | I]; [|]); try tauto.
    1: destruct (one_user kw Snowflake) as [u|]; [|discriminate]; cbn [bind].
    6: destruct (creds_of kw) as [cr|]; [|discriminate]; cbn [bind]; destruct (project_id cr) as [pid|]; [|discriminate]; cbn [bind].
    all: intros [= <-]; cbn; unfold pop, set; cbn;
      repeat match goal with |- context [if truthy ?v then _ else _] => destruct (truthy v); cbn end; eexists; reflexivity.
  Qed.

  (** Druid, SQL Server and Synapse can be printed iff a user and a password were given. *)
  Theorem C59_prints_exact c kw o :
    In c [Druid; SQLServer; AzureSynapse] -> construct c kw = Ok o ->
    ((exists d, printable_attributes o = Ok d) <->
     truthy (param c kw "password") = true /\
     (truthy (param c kw "user") = true \/ truthy (param c kw "username") = true)).
  Proof.
    intros I. unfold Connections_Model.construct. destruct (existsb _ (required c) || _); [discriminate|].
    cbn in I. repeat (destruct I as [<- | I]; [|]); try tauto.
    all: unfold opt_user; match goal with |- context [param ?c ?kw "user"] =>
           destruct (truthy (param c kw "user")) eqn:A, (truthy (param c kw "username")) eqn:B end; cbn [andb];
         try discriminate; cbn [bind]; intros [= <-]; cbn; rewrite ?A, ?B; unfold pop, set; cbn;
         match goal with |- context [truthy (param ?c ?kw "password")] => destruct (truthy (param c kw "password")) eqn:P end; cbn;
         (split; [intros [d D]; try discriminate; split; auto | intros [D1 D2]; try discriminate; try (destruct D2; discriminate); eexists; reflexivity]).
  Qed.

  (** A Trino connection can never be printed. *)
  Theorem C59_trino_refuted kw o : construct Trino kw = Ok o -> printable_attributes o = Err KeyError.
  Proof.
    unfold Connections_Model.construct. destruct (existsb _ (required Trino) || _); [discriminate|].
    intros [= <-]. cbn. unfold pop.
    repeat match goal with |- context [if truthy ?v then _ else _] => destruct (truthy v); cbn end; reflexivity.
  Qed.

  (** What is printed is what was configured. *)
  Theorem C59_shows_configured c kw o d k v :
    c <> BigQuery -> construct c kw = Ok o -> printable_attributes o = Ok d -> assoc k d = Some v -> k <> "type" ->
    exists a, In a (sources c k) /\ param c kw a = v.
  Proof.
    intros NB. unfold Connections_Model.construct.
    destruct (existsb _ (required c) || _); [discriminate|].
    destruct c; try (exfalso; apply NB; reflexivity); clear NB.
    1: destruct (one_user kw Snowflake) as [u|] eqn:U; [|discriminate]; cbn [bind].
    all: try (destruct (opt_user kw _) as [u|] eqn:U; [|discriminate]; cbn [bind]).
    all: intros [= <-].
    1: apply one_user_shape in U.
    all: try (apply opt_user_shape in U; destruct U as [-> | [w [-> [U1 U]]]]).
    all: unfold printable_attributes; cbn -[pick]; unfold pop, set; cbn -[pick];
      repeat match goal with |- context [if truthy ?v then _ else _] => destruct (truthy v) eqn:?; cbn -[pick] end;
      intros D; try discriminate D; apply ok_inj in D; subst d; intros A NT; apply assoc_pick in A; revert A; cbn;
      repeat match goal with |- context [if String.eqb ?k ?s then _ else _] =>
        destruct (String.eqb_spec k s) as [->|]; cbn end;
      intros A; try discriminate A; try (exfalso; apply NT; reflexivity); injection A as <-;
      first [ eexists; split; [left; reflexivity | reflexivity]
            | destruct U as [U|[U|[]]]; subst; ((eexists; split; [left; reflexivity | reflexivity]) || (eexists; split; [right; left; reflexivity | reflexivity]))].
  Qed.
End Props.

Print Assumptions C59_no_secret.
Print Assumptions C59_bigquery.
Print Assumptions C59_prints_partial.
Print Assumptions C59_prints_exact.
Print Assumptions C59_trino_refuted.
Print Assumptions C59_shows_configured.

(** A case: a Snowflake connection; two passwords, one print. *)
Definition no_json : string -> option cval := fun _ => None.
Definition no_file : cval -> string -> res cval := fun _ _ => Err ValueError.
Definition ex_kw (pw : string) : list (string * cval) :=
  [("type", CStr "snowflake"); ("name", CStr "wh"); ("account", CStr "acme"); ("username", CStr "bob");
   ("password", CStr pw); ("database", CStr "sales")].
Example C59_case :
  same_public (ex_kw "a") (ex_kw "b") /\
  (o <- construct no_json no_file (fun _ => false) Snowflake (ex_kw "a") ;; printable_attributes o)
  = Ok [("name", CStr "wh"); ("type", CStr "SNOWFLAKE"); ("account", CStr "acme"); ("user", CStr "bob"); ("database", CStr "sales")].
Proof.
  split; [|reflexivity]. intros k N. cbn. unfold secrets in N.
  destruct (String.eqb_spec k "password") as [->|]; [exfalso; apply N; cbn; tauto|].
  repeat (destruct (String.eqb k _); [reflexivity|]). reflexivity.
Qed.

(** A SQL Server connection that logs in without a password is accepted but cannot be printed. *)
Theorem C59_prints_refuted :
  exists c kw o, construct no_json no_file (fun _ => false) c kw = Ok o /\ printable_attributes o = Err KeyError /\
    truthy (param c kw "user") = true.
Proof.
  exists SQLServer, [("name", CStr "s"); ("host", CStr "h"); ("user", CStr "u")]. eexists. repeat split; reflexivity.
Qed.
Print Assumptions C59_prints_refuted.
