(** C82: a connection built again from the dictionary it gives of itself. *)
From Coq Require Import List String Ascii ZArith Bool.
From Verif Require Import PyBase PyStr Connections_Model.
Import ListNotations.
Open Scope string_scope.
Open Scope list_scope.

(** ** Specification *)
(** None, an empty text, zero and an empty dictionary all say that nothing is configured. *)
Definition says_nothing (v : cval) : Prop := v = CNone \/ v = CStr "" \/ v = CNum 0%Z \/ v = CDict [].
Definition same_setting (a b : cval) : Prop := a = b \/ says_nothing a /\ says_nothing b.
(** the same kind of connection with the same settings, apart from those named *)
Definition same_but (lost : list string) (o o' : obj) : Prop :=
  o_cls o = o_cls o' /\ map fst (o_attrs o) = map fst (o_attrs o') /\
  forall k v, attr o k = Ok v -> exists v', attr o' k = Ok v' /\ if mem k lost then v' = CNone else same_setting v v'.

Lemma nothing v : truthy v = false -> says_nothing v.
Proof.
  unfold says_nothing. destruct v as [|s|z|d]; cbn [truthy]; intros H; auto.
  - apply negb_false_iff, String.eqb_eq in H. subst. auto.
  - apply negb_false_iff, Z.eqb_eq in H. subst. auto.
  - destruct d; [auto|discriminate].
Qed.
Lemma user_cases c kw u : opt_user kw c = Ok u -> u = [] \/ exists w, u = [("user", w)] /\ truthy w = true.
Proof.
  unfold opt_user. destruct (truthy (param c kw "user")) eqn:A, (truthy (param c kw "username")) eqn:B; cbn [andb]; intros [= <-]; eauto.
Qed.
Lemma user_truthy c kw u : one_user kw c = Ok u -> truthy u = true.
Proof. unfold one_user. destruct (truthy (param c kw "user")) eqn:A, (truthy (param c kw "username")) eqn:B; cbn [andb]; intros [= <-]; auto. Qed.

Lemma same_by_row lost o o' : o_cls o = o_cls o' ->
  Forall2 (fun a b => fst a = fst b /\ if mem (fst a) lost then snd b = CNone else same_setting (snd a) (snd b)) (o_attrs o) (o_attrs o') -> same_but lost o o'.
Proof.
  intros C F. split; [exact C|]. unfold attr. induction F as [|[k v] [k' v'] l l' [K V] F [IH1 IH2]]; [split; [reflexivity|discriminate]|].
  cbn [fst snd] in K, V. subst k'. cbn [map fst]. split; [now rewrite IH1|]. intros q w. cbn [assoc]. destruct (String.eqb_spec q k) as [->|N]; [|apply IH2].
  intros [= <-]. exists v'. auto.
Qed.

Section Props.
  Variable json_loads : string -> option cval.
  Variable open_json : cval -> string -> res cval.
  Variable isabs : string -> bool.
  Notation construct := (construct json_loads open_json isabs).
  Notation load_connection := (load_connection json_loads open_json isabs).
  Local Arguments param : simpl never.
  Local Arguments truthy : simpl never.

  Ltac split_truth :=
    repeat match goal with |- context [if truthy ?v then _ else _] => destruct (truthy v) eqn:?; cbn end.
  Ltac rows :=
    eexists; (split; [reflexivity|]); apply same_by_row; [reflexivity|]; cbn;
    repeat (apply Forall2_cons; [split; [reflexivity|]; cbn; first [reflexivity | left; reflexivity | right; split; [apply nothing; assumption|left; reflexivity]]|]); apply Forall2_nil.

  (** Snowflake, Databricks, Redshift and Druid connections come back. *)
  Theorem C82_same_partial c kw o d : In c [Snowflake; Databricks; Redshift; Druid] ->
    construct c kw = Ok o -> to_dict o = Ok d -> exists o', load_connection d = Ok o' /\ same_but [] o o'.
  Proof.
    intros I. unfold Connections_Model.construct. destruct (existsb _ (required c) || _); [discriminate|].
    cbn in I. repeat (destruct I as [<- | I]; [|]); try tauto.
    1: destruct (one_user kw Snowflake) as [u|] eqn:U; [|discriminate]; cbn [bind]; apply user_truthy in U.
    4: destruct (opt_user kw Druid) as [u|] eqn:U; [|discriminate]; cbn [bind]; apply user_cases in U; destruct U as [-> | [w [-> U]]].
    all: intros [= <-]; cbn; rewrite ?U; cbn; split_truth; intros D; try discriminate D; injection D as <-;
      unfold Connections_Model.load_connection, Connections_Model.construct, class_lookup, one_user, opt_user, param; cbn; rewrite ?U; cbn;
      rows.
  Qed.
  (** A SQL Server connection loses its database and its schema, a BigQuery one its schema; nothing else is lost. *)
  Theorem C82_lost_partial c kw o d : In c [SQLServer; BigQuery] -> construct c kw = Ok o -> to_dict o = Ok d ->
    exists o', load_connection d = Ok o' /\ same_but (if mem (type_name c) ["SQL_SERVER"] then ["database"; "schema"] else ["schema"]) o o'.
  Proof.
    intros I. unfold Connections_Model.construct. destruct (existsb _ (required c) || _); [discriminate|].
    cbn in I. repeat (destruct I as [<- | I]; [|]); try tauto.
    - destruct (opt_user kw SQLServer) as [u|] eqn:U; [|discriminate]; cbn [bind]; apply user_cases in U; destruct U as [-> | [w [-> U]]];
      intros [= <-]; cbn; rewrite ?U; cbn; split_truth; intros D; try discriminate D; injection D as <-;
      unfold Connections_Model.load_connection, Connections_Model.construct, class_lookup, opt_user, param; cbn; rewrite ?U; cbn;
      rows.
    - destruct (creds_of _ _ _ kw) as [cr|] eqn:CR; [|discriminate]. cbn [bind]. destruct (project_id cr) as [pid|] eqn:P; [|discriminate].
      intros [= <-]; cbn; intros D; injection D as <-. destruct cr as [| | |cd]; try discriminate P.
      unfold Connections_Model.load_connection, Connections_Model.construct, class_lookup. cbn.
      unfold creds_of, param. cbn. unfold project_id in P.
      assert (T : truthy (CDict cd) = true) by (destruct cd; [discriminate P|reflexivity]). rewrite T. cbn [convert_json bind project_id]. rewrite P. cbn [bind].
      rows.
  Qed.
  (** A configured database or schema of these is gone. *)
  Theorem C82_database_refuted kw o d db : construct SQLServer kw = Ok o -> to_dict o = Ok d -> param SQLServer kw "database" = CStr db ->
    attr o "database" = Ok (CStr db) /\ exists o', load_connection d = Ok o' /\ attr o' "database" = Ok CNone.
  Proof.
    intros C D P. assert (A : attr o "database" = Ok (CStr db)).
    { revert C. unfold Connections_Model.construct. destruct (existsb _ (required SQLServer) || _); [discriminate|].
      destruct (opt_user kw SQLServer) as [u|] eqn:U; [|discriminate]. cbn [bind]. apply user_cases in U. intros [= <-]. rewrite P. destruct U as [->|[w [-> _]]]; reflexivity. }
    split; [exact A|]. destruct (C82_lost_partial SQLServer kw o d (or_introl eq_refl) C D) as (o' & L & (_ & _ & K)).
    destruct (K _ _ A) as (v' & V & W). cbn in W. subst. eauto.
  Qed.
  (** Postgres, DuckDB and Trino connections give a dictionary from which no connection can be built. *)
  Theorem C82_refused_refuted c kw o d : In c [Postgres; DuckDB; Trino] -> construct c kw = Ok o -> to_dict o = Ok d -> load_connection d = Err TypeError.
  Proof.
    intros I. unfold Connections_Model.construct. destruct (existsb _ (required c) || _); [discriminate|].
    cbn in I. repeat (destruct I as [<- | I]; [|]); try tauto.
    all: intros [= <-]; cbn; split_truth; intros D; injection D as <-; reflexivity.
  Qed.
  (** An Azure Synapse connection comes back as one of SQL Server. *)
  Theorem C82_synapse_refuted kw o d o' : construct AzureSynapse kw = Ok o -> to_dict o = Ok d -> load_connection d = Ok o' -> o_cls o = AzureSynapse /\ o_cls o' = SQLServer.
  Proof.
    unfold Connections_Model.construct. destruct (existsb _ (required AzureSynapse) || _); [discriminate|].
    destruct (opt_user kw AzureSynapse) as [u|] eqn:U; [|discriminate]; cbn [bind]; apply user_cases in U; destruct U as [-> | [w [-> U]]];
      intros [= <-]; cbn; rewrite ?U; cbn; split_truth; intros D; try discriminate D; injection D as <-;
      unfold Connections_Model.load_connection, Connections_Model.construct, class_lookup, opt_user, param; cbn; rewrite ?U; cbn; intros [= <-]; split; reflexivity.
  Qed.
  (** Without a user Druid, SQL Server and Synapse connections give no dictionary. *)
  Theorem C82_no_user_refuted c kw o : In c [Druid; SQLServer; AzureSynapse] -> construct c kw = Ok o ->
    truthy (param c kw "user") = false -> truthy (param c kw "username") = false -> to_dict o = Err AttributeError.
  Proof.
    intros I. unfold Connections_Model.construct. destruct (existsb _ (required c) || _); [discriminate|]. unfold opt_user.
    cbn in I. repeat (destruct I as [<- | I]; [|]); try tauto.
    all: intros C A B; rewrite A, B in C; cbn [andb bind] in C; injection C as <-; reflexivity.
  Qed.
End Props.
Print Assumptions C82_same_partial.
Print Assumptions C82_lost_partial.
Print Assumptions C82_database_refuted.
Print Assumptions C82_refused_refuted.
Print Assumptions C82_synapse_refuted.
Print Assumptions C82_no_user_refuted.

Definition no_json : string -> option cval := fun _ => None.
Definition no_file : cval -> string -> res cval := fun _ _ => Err ValueError.
Definition ex_kw (c : cls) : list (string * cval) :=
  [("type", CStr (lower (type_name c))); ("name", CStr "wh"); ("account", CStr "acme"); ("host", CStr "db"); ("http_path", CStr "/sql"); ("user", CStr "bob");
   ("password", CStr "pw"); ("database", CStr "sales"); ("role", CStr "")].
Example C82_cases :
  (o <- load_connection no_json no_file (fun _ => false) (ex_kw Snowflake) ;; d <- to_dict o ;; o' <- load_connection no_json no_file (fun _ => false) d ;; attr o' "role") = Ok CNone
  /\ (o <- load_connection no_json no_file (fun _ => false) (ex_kw Snowflake) ;; d <- to_dict o ;; o' <- load_connection no_json no_file (fun _ => false) d ;; attr o' "database") = Ok (CStr "sales")
  /\ (o <- load_connection no_json no_file (fun _ => false) (ex_kw SQLServer) ;; d <- to_dict o ;; o' <- load_connection no_json no_file (fun _ => false) d ;; attr o' "database") = Ok CNone
  /\ (o <- load_connection no_json no_file (fun _ => false) (ex_kw Trino) ;; d <- to_dict o ;; load_connection no_json no_file (fun _ => false) d) = Err TypeError.
Proof. repeat split; reflexivity. Qed.
