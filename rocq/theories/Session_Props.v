(** C60: a query runs on the connection its SQL was written for, with the configured session. *)
From Coq Require Import List String Ascii ZArith Bool Lia.
From Verif Require Import PyBase PyStr Connections_Model Connections_Props.
Import ListNotations.
Open Scope string_scope.
Open Scope list_scope.

(** ** Specification: how a URL is read (RFC 3986): the authority ends at the first / ? or #, the user
    information at the first @, the user at the first colon; user and password are percent decoded. *)
Fixpoint cut (stop : ascii -> bool) (s : string) : string * string :=
  match s with
  | EmptyString => (EmptyString, EmptyString)
  | String c r => if stop c then (EmptyString, s) else let (a, b) := cut stop r in (String c a, b)
  end.

Definition one_of (l : list ascii) (c : ascii) : bool := existsb (Ascii.eqb c) l.

Definition tail (s : string) : string := match s with EmptyString => EmptyString | String _ r => r end.

Definition hex (c : ascii) : option nat :=
  let n := nat_of_ascii c in
  if (Nat.leb 48 n && Nat.leb n 57)%bool then Some (n - 48)
  else if (Nat.leb 65 n && Nat.leb n 70)%bool then Some (n - 55)
  else if (Nat.leb 97 n && Nat.leb n 102)%bool then Some (n - 87) else None.

Fixpoint unquote (s : string) : string :=
  match s with
  | String c (String a (String b r) as r') =>
      if Ascii.eqb c "%" then
        match hex a, hex b with
        | Some x, Some y => String (ascii_of_nat (16 * x + y)) (unquote r)
        | _, _ => String c (unquote r')
        end
      else String c (unquote r')
  | _ => s
  end.

Record login := Login { l_user : string; l_password : string; l_host : string; l_port : string; l_db : string }.

Definition read_url (u : string) : option login :=
  match strip_prefix "postgresql://" u with
  | None => None
  | Some rest =>
      let (authority, path) := cut (one_of ["/"; "?"; "#"]%char) rest in
      let (info, at_) := cut (one_of ["@"]%char) authority in
      let (user, pw) := cut (one_of [":"]%char) info in
      let (host, port) := cut (one_of [":"]%char) (tail at_) in
      let (db, _) := cut (one_of ["?"; "#"]%char) (tail path) in
      Some (Login (unquote user) (unquote (tail pw)) host (tail port) db)
  end.

Definition clean (l : list ascii) (s : string) : Prop := forall c, In c l -> has_char c s = false.

Lemma clean_cut l s : clean l s -> forall r, cut (one_of l) (s ++ r) = let (a, b) := cut (one_of l) r in ((s ++ a)%string, b).
Proof.
  intros H r. induction s as [|c s IH]; cbn [append cut]; [destruct (cut (one_of l) r); reflexivity|].
  assert (one_of l c = false) as ->.
  { unfold one_of. destruct (existsb (Ascii.eqb c) l) eqn:E; [|reflexivity]. apply existsb_exists in E.
    destruct E as [x [I E]]. apply Ascii.eqb_eq in E. subst x. specialize (H c I). cbn in H.
    rewrite Ascii.eqb_refl in H. discriminate. }
  rewrite IH; [destruct (cut (one_of l) r); reflexivity|].
  intros x I. specialize (H x I). cbn in H. apply orb_false_iff in H. apply H.
Qed.

Lemma cut_end l s : clean l s -> cut (one_of l) s = (s, EmptyString).
Proof. intros H. rewrite <- (append_nil_r s) at 1. rewrite (clean_cut l s H). cbn. rewrite append_nil_r. reflexivity. Qed.

Lemma unquote_id s : has_char "%" s = false -> unquote s = s.
Proof.
  induction s as [|c s IH]; [reflexivity|]. intros H. cbn in H. apply orb_false_iff in H. destruct H as [A B].
  destruct s as [|a [|b r]]; [reflexivity | reflexivity |].
  change (unquote (String c (String a (String b r)))) with
    (if Ascii.eqb c "%" then match hex a, hex b with Some x, Some y => String (ascii_of_nat (16 * x + y)) (unquote r)
                              | _, _ => String c (unquote (String a (String b r))) end
     else String c (unquote (String a (String b r)))).
  replace (Ascii.eqb c "%") with false by (symmetry; first [exact A | rewrite Ascii.eqb_sym; exact A]). rewrite (IH B). reflexivity.
Qed.

Lemma clean_app l a b : clean l a -> clean l b -> clean l (a ++ b).
Proof. intros A B c I. rewrite has_char_app, (A c I), (B c I). reflexivity. Qed.
Lemma clean_incl l m s : clean m s -> incl l m -> clean l s.
Proof. intros A I c H. apply A, I, H. Qed.

Definition delims : list ascii := ["/"; "?"; "#"; "@"; ":"]%char.

(** A Postgres session gets the configured login when user, password, host and port have none of the
    delimiters (nor a percent sign) and the database no ? or #. *)
Theorem C60_postgres_url_partial user password host port db :
  clean ("%"%char :: delims) user -> clean ["/"; "?"; "#"; "@"; "%"]%char password ->
  clean delims host -> clean delims port -> clean ["?"; "#"]%char db ->
  read_url (postgres_url user password host port db) = Some (Login user password host port db).
Proof.
  intros U P H O D. unfold read_url, postgres_url. rewrite strip_prefix_app.
  rewrite <- !append_assoc. rewrite append_assoc.
  rewrite clean_cut.
  2:{ repeat apply clean_app; try (eapply clean_incl; [eassumption|]; unfold delims; cbv; intuition);
      intros c I; repeat (destruct I as [<-|I]; [reflexivity|]); destruct I. }
  cbn [append cut one_of existsb Ascii.eqb Bool.eqb orb].
  rewrite append_nil_r. rewrite !append_assoc. rewrite <- (append_assoc ":" password).
  rewrite <- (append_assoc user).
  rewrite clean_cut.
  2:{ repeat apply clean_app; try (eapply clean_incl; [eassumption|]; unfold delims; cbv; intuition);
      intros c I; repeat (destruct I as [<-|I]; [reflexivity|]); destruct I. }
  cbn [append cut one_of existsb Ascii.eqb Bool.eqb orb]. rewrite append_nil_r.
  rewrite (clean_cut [":"]%char user). 2:{ eapply clean_incl; [eassumption|]. cbv; intuition. }
  cbn [append cut one_of existsb Ascii.eqb Bool.eqb orb tail]. rewrite append_nil_r.
  rewrite (clean_cut [":"]%char host). 2:{ eapply clean_incl; [eassumption|]. cbv; intuition. }
  cbn [append cut one_of existsb Ascii.eqb Bool.eqb orb tail]. rewrite append_nil_r.
  rewrite (cut_end ["?"; "#"]%char db D).
  rewrite !unquote_id; [reflexivity | apply P; cbv; intuition | apply U; cbv; intuition].
Qed.
Print Assumptions C60_postgres_url_partial.

Example C60_url_case :
  postgres_url "bob" "s3cr:t" "db.acme.com" "5432" "sales" = "postgresql://bob:s3cr:t@db.acme.com:5432/sales" /\
  read_url (postgres_url "bob" "s3cr:t" "db.acme.com" "5432" "sales") = Some (Login "bob" "s3cr:t" "db.acme.com" "5432" "sales").
Proof. split; reflexivity. Qed.

(** A password with an at sign makes the driver connect to another host. *)
Theorem C60_postgres_password_refuted :
  exists user password host port db,
    read_url (postgres_url user password host port db) = Some (Login user "p" "evil.com@db.acme.com" port db) /\
    host = "db.acme.com" /\ password = "p@evil.com".
Proof. exists "bob", "p@evil.com", "db.acme.com", "5432", "sales". repeat split; reflexivity. Qed.
Print Assumptions C60_postgres_password_refuted.

Section Types.
  Variable json_loads : string -> option cval.
  Variable open_json : cval -> string -> res cval.
  Variable isabs : string -> bool.
  Notation construct := (construct json_loads open_json isabs).
  Notation load_connection := (load_connection json_loads open_json isabs).

  Lemma construct_type c kw o : construct c kw = Ok o ->
    attr o "type" = Ok (CStr (match c with AzureSynapse => "SQL_SERVER" | _ => type_name c end)).
  Proof.
    unfold Connections_Model.construct. destruct (existsb _ (required c) || _); [discriminate|].
    destruct c; try (intros [= <-]; reflexivity).
    - destruct (one_user kw Snowflake); [|discriminate]. intros [= <-]. reflexivity.
    - destruct (opt_user kw Druid); [|discriminate]. intros [= <-]. reflexivity.
    - destruct (opt_user kw SQLServer); [|discriminate]. intros [= <-]. reflexivity.
    - destruct (opt_user kw AzureSynapse); [|discriminate]. intros [= <-]. reflexivity.
    - destruct (creds_of _ _ _ kw) as [cr|]; [|discriminate]. cbn [bind]. destruct (project_id cr); [|discriminate].
      intros [= <-]. reflexivity.
  Qed.

  Lemma class_lookup_name t c : class_lookup t = Some c -> type_name c = t.
  Proof. unfold class_lookup. intros H. apply find_some in H. destruct H as [_ H]. apply String.eqb_eq in H. exact H. Qed.

  (** A loaded connection has the type it was declared with, in any letter case, unless it is an Azure
      Synapse connection. *)
  Theorem C60_type_partial kw o t :
    load_connection kw = Ok o -> assoc "type" kw = Some (CStr t) -> upper t <> "AZURE_SYNAPSE" ->
    attr o "type" = Ok (CStr (upper t)).
  Proof.
    unfold Connections_Model.load_connection. intros L T. rewrite T in L. intros NA.
    destruct (class_lookup (upper t)) as [c|] eqn:C; [|discriminate]. rewrite (construct_type _ _ _ L).
    apply class_lookup_name in C. destruct c; rewrite <- C; try reflexivity. exfalso. apply NA. rewrite <- C. reflexivity.
  Qed.

  (** Every Azure Synapse connection gets the type of SQL Server, so its SQL is written for SQL Server. *)
  Theorem C60_synapse_refuted kw o t :
    load_connection kw = Ok o -> assoc "type" kw = Some (CStr t) -> upper t = "AZURE_SYNAPSE" ->
    attr o "type" = Ok (CStr "SQL_SERVER").
  Proof.
    unfold Connections_Model.load_connection. intros L T. rewrite T in L. intros NA. rewrite NA in L.
    cbn [class_lookup find type_name String.eqb Ascii.eqb Bool.eqb] in L. exact (construct_type AzureSynapse kw o L).
  Qed.

  Local Arguments param : simpl never.

  (** The Redshift and Snowflake drivers get exactly the configured values. *)
  Theorem C60_redshift_session kw o :
    construct Redshift kw = Ok o ->
    redshift_session o = Ok [("host", param Redshift kw "host"); ("port", param Redshift kw "port");
      ("database", param Redshift kw "database"); ("user", param Redshift kw "username"); ("password", param Redshift kw "password")].
  Proof.
    unfold Connections_Model.construct. destruct (existsb _ (required Redshift) || _); [discriminate|].
    intros [= <-]. reflexivity.
  Qed.

  Theorem C60_snowflake_session kw o :
    construct Snowflake kw = Ok o ->
    exists u, (u = param Snowflake kw "user" \/ u = param Snowflake kw "username") /\ truthy u = true /\
      snowflake_session o = Ok [("account", param Snowflake kw "account"); ("user", u);
        ("password", param Snowflake kw "password"); ("role", param Snowflake kw "role")].
  Proof.
    unfold Connections_Model.construct. destruct (existsb _ (required Snowflake) || _); [discriminate|].
    unfold one_user. destruct (truthy (param Snowflake kw "user")) eqn:A, (truthy (param Snowflake kw "username")) eqn:B;
      cbn [andb bind]; try discriminate; intros [= <-]; eexists; (split; [|split; [|reflexivity]]); auto.
  Qed.

  (** The database of a Postgres connection is read from dbname; one given as database is silently
      ignored. *)
  Theorem C60_postgres_database_refuted kw o :
    construct Postgres kw = Ok o -> assoc "dbname" kw = None -> attr o "database" = Ok CNone.
  Proof.
    unfold Connections_Model.construct. destruct (existsb _ (required Postgres) || _); [discriminate|].
    intros [= <-] H. unfold attr. cbn. unfold param. rewrite H. reflexivity.
  Qed.
End Types.
Print Assumptions C60_type_partial.
Print Assumptions C60_synapse_refuted.
Print Assumptions C60_redshift_session.
Print Assumptions C60_snowflake_session.
Print Assumptions C60_postgres_database_refuted.

Example C60_types_case :
  (o <- load_connection no_json no_file (fun _ => false)
     [("type", CStr "Postgres"); ("name", CStr "pg"); ("host", CStr "h"); ("user", CStr "u"); ("password", CStr "p"); ("database", CStr "sales")] ;;
   t <- attr o "type" ;; d <- attr o "database" ;; Ok (t, d)) = Ok (CStr "POSTGRES", CNone) /\
  (o <- load_connection no_json no_file (fun _ => false)
     [("type", CStr "azure_synapse"); ("name", CStr "az"); ("host", CStr "h"); ("user", CStr "u")] ;; attr o "type") = Ok (CStr "SQL_SERVER").
Proof. split; reflexivity. Qed.

(** The dialect of the SQL (the project's connection lookup) is the type of the connection the query
    runs on, when names are distinct ... *)
Theorem C60_dialect_is_connection_partial cs name :
  NoDup (map fst cs) -> connection_lookup cs name = get_connection cs name.
Proof.
  unfold connection_lookup, get_connection. induction cs as [|[n t] cs IH]; [reflexivity|].
  cbn [map fst]. intros N. inversion N as [|x l A B]; subst. cbn [rev]. rewrite assoc_app, (IH B). cbn.
  destruct (String.eqb_spec name n) as [->|].
  - destruct (assoc n cs) as [v|] eqn:E; [|reflexivity]. exfalso. apply A.
    clear -E. induction cs as [|[k w] cs IH]; [discriminate|]. cbn in *. destruct (String.eqb_spec n k); [left; auto | right; auto].
  - destruct (assoc name cs); reflexivity.
Qed.
Print Assumptions C60_dialect_is_connection_partial.

(** ... and not otherwise: with two connections of one name the SQL is written for the last and run on
    the first. *)
Theorem C60_same_name_refuted :
  exists cs name, connection_lookup cs name = Some "BIGQUERY" /\ get_connection cs name = Some "SNOWFLAKE".
Proof. exists [("wh", "SNOWFLAKE"); ("wh", "BIGQUERY")], "wh". split; reflexivity. Qed.
Print Assumptions C60_same_name_refuted.
