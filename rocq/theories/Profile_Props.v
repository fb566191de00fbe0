(** C71: a command uses the connection its profile describes. *)
From Coq Require Import List String Ascii Bool Arith ZArith.
From Verif Require Import PyBase PyStr JoinAs_Model Connections_Model Profile_Model.
Import ListNotations.
Local Open Scope string_scope.
Local Open Scope list_scope.

(** ** The connection of a profile *)
Lemma assoc_app (k : string) (a b : kwargs) : assoc k (a ++ b) = match assoc k a with Some v => Some v | None => assoc k b end.
Proof. induction a as [|[x v] a IH]; [reflexivity|]. cbn. destruct (String.eqb k x); [reflexivity|exact IH]. Qed.
Lemma set_same k v (d : kwargs) : assoc k (set k v d) = Some v.
Proof.
  unfold set. destruct (assoc k d) as [w|] eqn:E; [|rewrite assoc_app, E; cbn; now rewrite String.eqb_refl].
  induction d as [|[x u] d IH]; [discriminate E|]. cbn [map fst] in *. cbn [assoc] in E. destruct (String.eqb k x) eqn:X; cbn [assoc]; [now rewrite String.eqb_refl|]. rewrite X. now apply IH.
Qed.
Lemma set_other k k' v (d : kwargs) : k' <> k -> assoc k' (set k v d) = assoc k' d.
Proof.
  intros N. apply String.eqb_neq in N. unfold set. destruct (assoc k d) eqn:E; [|rewrite assoc_app; cbn; rewrite N; destruct (assoc k' d); reflexivity].
  clear E. induction d as [|[x u] d IH]; [reflexivity|]. cbn [map fst]. destruct (String.eqb k x) eqn:X; cbn [assoc].
  - apply String.eqb_eq in X. subst x. rewrite N. exact IH.
  - destruct (String.eqb k' x); [reflexivity|exact IH].
Qed.
(** the dictionary a profiles file has for a target of a profile *)
Definition described (ps : kwargs) (name : string) (target : option string) (kw : kwargs) : Prop :=
  exists prof outs t, assoc name ps = Some (CDict prof) /\ (target = Some t \/ target = None /\ assoc "target" prof = Some (CStr t)) /\
    assoc "outputs" prof = Some (CDict outs) /\ assoc t outs = Some (CDict kw).
(** C71: the connection of a profile is the dictionary of its target, under the name of the profile *)
Theorem C71_profile ps dir name target l : connections_from_profile (Some (CDict ps)) dir name target = Done l ->
  exists kw kw', l = [kw'] /\ described ps name target kw /\ assoc "name" kw' = Some (CStr name) /\ assoc "directory" kw' = Some (CStr dir) /\ forall k, k <> "name" -> k <> "directory" -> assoc k kw' = assoc k kw.
Proof.
  unfold connections_from_profile. cbn [get]. destruct (assoc name ps) as [prof|] eqn:P; [|discriminate]. cbn [andthen]. destruct (is_none prof) eqn:N; [discriminate|].
  intros H. assert (D : exists pd, prof = CDict pd). { destruct prof; try discriminate N; eauto; exfalso; destruct target; cbn in H; discriminate H. }
  destruct D as [pd ->]. cbn [index] in H.
  assert (R : forall t, (match assoc "outputs" pd with Some v => Done v | None => Raised (Py KeyError) end) = (match assoc "outputs" pd with Some v => Done v | None => Raised (Py KeyError) end : out cval) ->
     (do outputs <- (match assoc "outputs" pd with Some v => Done v | None => Raised (Py KeyError) end) ;
      do found <- get outputs t ; match found with CNone => Raised NoTarget | CDict kw => Done [set "name" (CStr name) (set "directory" (CStr dir) kw)] | _ => Raised (Py TypeError) end) = Done l ->
     exists outs kw, assoc "outputs" pd = Some (CDict outs) /\ assoc t outs = Some (CDict kw) /\ l = [set "name" (CStr name) (set "directory" (CStr dir) kw)]).
  { intros t _ X. destruct (assoc "outputs" pd) as [o|]; [|discriminate X]. cbn [andthen] in X. destruct o; try discriminate X. cbn [get andthen] in X. destruct (assoc t d) as [v|] eqn:V; [|discriminate X]. destruct v; try discriminate X. injection X as <-. eauto. }
  assert (F : exists t outs kw, (target = Some t \/ target = None /\ assoc "target" pd = Some (CStr t)) /\ assoc "outputs" pd = Some (CDict outs) /\ assoc t outs = Some (CDict kw) /\ l = [set "name" (CStr name) (set "directory" (CStr dir) kw)]).
  { destruct target as [t|].
    - cbn [andthen] in H. destruct (R t eq_refl) as (outs & kw & A & B & C); [|exists t, outs, kw; auto]. exact H.
    - destruct (assoc "target" pd) as [t|] eqn:T; [|discriminate H]. cbn [andthen] in H. destruct t as [|t|z|d]; try (exfalso; destruct (assoc "outputs" pd) as [[| | |]|]; discriminate H).
      destruct (R t eq_refl) as (outs & kw & A & B & C); [|exists t, outs, kw; auto]. exact H. }
  destruct F as (t & outs & kw & A & B & C & ->). exists kw, (set "name" (CStr name) (set "directory" (CStr dir) kw)). split; [reflexivity|]. split; [exists pd, outs, t; auto|]. split; [apply set_same|]. split; [rewrite set_other by discriminate; apply set_same|].
  intros k N1 N2. now rewrite !set_other.
Qed.
Theorem C71_profile_found ps dir name target kw : described ps name target kw -> exists l, connections_from_profile (Some (CDict ps)) dir name target = Done l.
Proof.
  intros (pd & outs & t & P & T & O & K). unfold connections_from_profile. cbn [get]. rewrite P. cbn [andthen is_none]. destruct T as [->|[-> T]]; cbn [index]; [|rewrite T]; cbn [andthen]; rewrite O; cbn [andthen get]; rewrite K; cbn; eauto.
Qed.
(** C71: what is missing is said *)
Theorem C71_no_file dir name target : connections_from_profile None dir name target = Raised NoProfilesFile.
Proof. reflexivity. Qed.
Theorem C71_no_profile ps dir name target : connections_from_profile (Some (CDict ps)) dir name target = Raised NoProfile <-> assoc name ps = None \/ assoc name ps = Some CNone.
Proof.
  unfold connections_from_profile. cbn [get andthen]. destruct (assoc name ps) as [v|] eqn:E; [|split; [auto|reflexivity]]. destruct v as [|s|z|pd]; cbn [is_none]; [split; auto| | |]; (split; [|intros [X|X]; discriminate X]); intros H; exfalso.
  - destruct target; discriminate H.
  - destruct target; discriminate H.
  - cbn [index] in H. destruct target as [t|]; [|destruct (assoc "target" pd) as [[|t|z|d]|]; try discriminate H]; cbn [andthen] in H; (destruct (assoc "outputs" pd) as [[| | |outs]|]; try discriminate H); cbn [andthen get] in H; try discriminate H; destruct (assoc t outs) as [[| | |]|]; discriminate H.
Qed.
Theorem C71_no_target ps dir name target prof outs t : assoc name ps = Some (CDict prof) -> assoc "outputs" prof = Some (CDict outs) -> (target = Some t \/ target = None /\ assoc "target" prof = Some (CStr t)) ->
  (connections_from_profile (Some (CDict ps)) dir name target = Raised NoTarget <-> assoc t outs = None \/ assoc t outs = Some CNone).
Proof.
  intros P O T. unfold connections_from_profile. cbn [get]. rewrite P. cbn [andthen is_none].
  assert (X : (do x <- (match target with Some t => Done (CStr t) | None => index (CDict prof) "target" end) ; Done x) = Done (CStr t)) by (destruct T as [->|[-> T]]; [reflexivity|cbn; now rewrite T]).
  destruct (match target with Some t => Done (CStr t) | None => index (CDict prof) "target" end) as [x|]; [|discriminate X]. injection X as ->. cbn [andthen index]. rewrite O. cbn [andthen get]. destruct (assoc t outs) as [[| | |]|]; split; intros H; auto; try discriminate H; destruct H as [H|H]; discriminate H.
Qed.
(** without a default target the message is Python's, as for a profile without outputs *)
Theorem C71_no_default_refuted ps dir name prof : assoc name ps = Some (CDict prof) -> assoc "target" prof = None -> connections_from_profile (Some (CDict ps)) dir name None = Raised (Py KeyError).
Proof. intros P T. unfold connections_from_profile. cbn [get]. rewrite P. cbn [andthen is_none index]. rewrite T. reflexivity. Qed.

(** ** The connection made of it *)
Section Connect.
  Variable json_loads : string -> option cval.
  Variable open_json : cval -> string -> res cval.
  Variable isabs : string -> bool.
  Notation load := (load_connection json_loads open_json isabs).
  (** C71: it has the name of the profile, whatever the target says *)
  Lemma made_name kw o n : load kw = Ok o -> assoc "name" kw = Some n -> attr o "name" = Ok n.
  Proof.
    unfold load_connection. destruct (assoc "type" kw) as [[|t| |]|]; try discriminate. destruct (class_lookup (upper t)) as [c|]; [|discriminate]. unfold construct. intros H N.
    destruct (existsb _ (required c) || _); [discriminate H|]. assert (P : param c kw "name" = n) by (unfold param; now rewrite N).
    destruct c; try (apply bind_ok in H; destruct H as (u & U & H)); try (apply bind_ok in H; destruct H as (w & W & H)); injection H as <-; unfold attr; cbn; now rewrite P.
  Qed.
  Theorem C71_name ps dir name target kw o : connections_from_profile (Some (CDict ps)) dir name target = Done [kw] -> load kw = Ok o -> attr o "name" = Ok (CStr name).
  Proof. intros H L. destruct (C71_profile _ _ _ _ _ H) as (k & k' & E & _ & N & _). injection E as <-. now apply (made_name kw o). Qed.
  (** C71: a Snowflake target gives the account, user, password, role, warehouse, database and schema it writes *)
  Definition written (kw : kwargs) (k : string) : cval := match assoc k kw with Some v => v | None => CNone end.
  Theorem C71_snowflake ps dir name target kw0 t kw : described ps name target kw0 -> connections_from_profile (Some (CDict ps)) dir name target = Done [kw] -> (forall x, described ps name target x -> x = kw0) ->
    assoc "type" kw0 = Some (CStr t) -> upper t = "SNOWFLAKE" -> assoc "account" kw0 <> None -> assoc "password" kw0 <> None -> truthy (written kw0 "user") = true -> truthy (written kw0 "username") = false -> assoc "self" kw0 = None ->
    exists o, load kw = Ok o /\ attr o "type" = Ok (CStr "SNOWFLAKE") /\ attr o "username" = Ok (written kw0 "user") /\ (forall k, In k ["account"; "password"; "role"; "warehouse"; "database"; "schema"] -> attr o k = Ok (written kw0 k)).
  Proof.
    intros D H U T UT A P US UN S. destruct (C71_profile _ _ _ _ _ H) as (k & k' & E & D' & N & DI & O). injection E as <-. rewrite (U k D') in *. clear U D D' k.
    assert (W : forall x, x <> "name" -> x <> "directory" -> param Snowflake kw x = written kw0 x) by (intros x X1 X2; unfold param, written; rewrite (O x X1 X2); destruct (assoc x kw0); reflexivity).
    unfold load_connection. rewrite (O "type") by discriminate. rewrite T, UT. cbn [class_lookup]. change (class_lookup "SNOWFLAKE") with (Some Snowflake). cbn iota. unfold construct. cbn [required existsb]. rewrite N, (O "account"), (O "password"), (O "self"), S by discriminate.
    destruct (assoc "account" kw0); [|congruence]. destruct (assoc "password" kw0); [|congruence]. cbn [orb]. unfold one_user. rewrite (W "user"), (W "username") by discriminate. rewrite US, UN. cbn [andb]. cbn [bind]. eexists. split; [reflexivity|]. split; [reflexivity|]. split; [reflexivity|].
    intros x I. destruct I as [<-|[<-|[<-|[<-|[<-|[<-|[]]]]]]]; unfold attr; cbn [assoc o_attrs String.eqb Ascii.eqb Bool.eqb]; rewrite W by discriminate; reflexivity.
  Qed.
  (** the other warehouses dbt knows: Redshift writes user and dbname, and is refused *)
  Theorem C71_redshift_refuted kw t : assoc "type" kw = Some (CStr t) -> upper t = "REDSHIFT" -> assoc "username" kw = None -> load kw = Err TypeError.
  Proof.
    intros T U N. unfold load_connection. rewrite T, U. change (class_lookup "REDSHIFT") with (Some Redshift). cbn iota. unfold construct. cbn [required existsb]. rewrite N. destruct (assoc "name" kw), (assoc "host" kw); cbn; reflexivity.
  Qed.
  (** and the types duckdb, sqlserver and synapse are not known *)
  Theorem C71_types_refuted kw t : assoc "type" kw = Some (CStr t) -> In t ["duckdb"; "sqlserver"; "synapse"] -> load kw = Err KeyError.
  Proof. intros T I. unfold load_connection. rewrite T. destruct I as [<-|[<-|[<-|[]]]]; reflexivity. Qed.
  (** and the token and catalog of a Databricks target are not used *)
  Theorem C71_databricks_refuted kw o t : assoc "type" kw = Some (CStr t) -> upper t = "DATABRICKS" -> assoc "personal_access_token" kw = None -> assoc "database" kw = None -> load kw = Ok o ->
    attr o "personal_access_token" = Ok CNone /\ attr o "database" = Ok CNone.
  Proof.
    intros T U N D. unfold load_connection. rewrite T, U. change (class_lookup "DATABRICKS") with (Some Databricks). cbn iota. unfold construct. destruct (existsb _ _ || _); [discriminate|]. intros H. injection H as <-. unfold attr. cbn [assoc o_attrs String.eqb Ascii.eqb Bool.eqb]. unfold param. rewrite N, D. auto.
  Qed.
  (** C71: a key file of a BigQuery target is looked for in the folder of the profiles file *)
  Theorem C71_key_file ps dir name target kw s o : connections_from_profile (Some (CDict ps)) dir name target = Done [kw] -> load kw = Ok o -> assoc "type" kw = Some (CStr "bigquery") ->
    assoc "keyfile" kw = Some (CStr s) -> assoc "credentials" kw = None -> json_loads s = None -> isabs s = false -> exists cr, open_json (CStr dir) s = Ok cr /\ attr o "credentials" = Ok cr.
  Proof.
    intros H L T K C J I. destruct (C71_profile _ _ _ _ _ H) as (k0 & k' & E & _ & _ & D & _). injection E as <-. unfold load_connection in L. rewrite T in L. change (class_lookup (upper "bigquery")) with (Some BigQuery) in L. cbn iota in L. unfold construct in L. destruct (existsb _ _ || _); [discriminate L|].
    apply bind_ok in L. destruct L as (cr & CR & L). apply bind_ok in L. destruct L as (pid & PI & L). injection L as <-. exists cr. split; [|reflexivity]. unfold creds_of, param in CR. rewrite C, K in CR. cbn [default truthy] in CR. unfold convert_json in CR. rewrite J, I, D in CR. exact CR.
  Qed.
End Connect.

(** ** The folder *)
Definition has (d : cval) (k : string) (v : cval) : Prop := exists l, d = CDict l /\ assoc k l = Some v.
(** C71: the profile is the option, or that of the project file, or without one that of the dbt project *)
Theorem C71_profile_of o f v : profile_of o f = Done v <->
  (exists p, o = Some p /\ v = CStr p) \/ o = None /\ ((exists z, f_zenlytic f = Some z /\ has z "profile" v) \/ f_zenlytic f = None /\ exists d, f_dbt f = Some d /\ has d "profile" v).
Proof.
  assert (I : forall d, index d "profile" = Done v <-> has d "profile" v).
  { intros d. unfold index, has. destruct d as [|s|z|l]; try (split; [discriminate|intros (l & E & _); discriminate E]). destruct (assoc "profile" l) as [w|] eqn:A; split.
    - intros H. injection H as ->. eauto.
    - intros (l' & E & X). injection E as <-. congruence.
    - discriminate.
    - intros (l' & E & X). injection E as <-. congruence. }
  unfold profile_of, get_profile. destruct o as [p|].
  - split; [intros H; injection H as <-; eauto|]. intros [(q & E & ->)|[E _]]; [now injection E as ->|discriminate E].
  - destruct (f_zenlytic f) as [z|]; [|destruct (f_dbt f) as [d|]].
    + rewrite I. split; [intros H; right; split; [reflexivity|]; left; eauto|]. intros [(q & E & _)|[_ [(z' & E & X)|[E _]]]]; try discriminate E. now injection E as ->.
    + rewrite I. split; [intros H; right; split; [reflexivity|]; right; eauto|]. intros [(q & E & _)|[_ [(z' & E & X)|[_ (d' & E & X)]]]]; try discriminate E. now injection E as ->.
    + split; [discriminate|]. intros [(q & E & _)|[_ [(z' & E & X)|[_ (d' & E & X)]]]]; discriminate E.
Qed.
(** a project file without a profile hides that of the dbt project *)
Theorem C71_hidden_profile_refuted l d v f : f_zenlytic f = Some (CDict l) -> assoc "profile" l = None -> f_dbt f = Some d -> has d "profile" v -> profile_of None f = Raised (Py KeyError).
Proof. intros Z N _ _. unfold profile_of, get_profile. rewrite Z. cbn. now rewrite N. Qed.
(** C71: init makes the folders that are missing and keeps the others *)
Lemma make_dirs_in l : forall dirs d, In d (make_dirs l dirs) <-> In d l \/ In d dirs.
Proof.
  unfold make_dirs. induction l as [|x l IH]; intros dirs d; cbn [fold_left In]; [tauto|]. rewrite IH. destruct (mem x dirs) eqn:M.
  - apply mem_In in M. split; [tauto|]. intros [[<-|H]|H]; auto.
  - rewrite in_app_iff. cbn. tauto.
Qed.
Theorem C71_init_folders f f' d : init f = Done f' -> (In d (f_dirs f') <-> In d (f_dirs f) \/ d = "dashboards" \/ f_dbt f = None /\ (d = "models" \/ d = "views")).
Proof.
  unfold init, init_project_file, init_directories. cbn [f_dbt f_zenlytic f_dirs]. intros H.
  assert (E : f_dirs f' = make_dirs (match f_dbt f with Some _ => ["dashboards"] | None => ["models"; "views"; "dashboards"] end) (f_dirs f)).
  { destruct (f_dbt f) as [x|]; [|injection H as <-; reflexivity]. destruct (index x "name"); [|discriminate H]. cbn [andthen] in H. destruct (index x "profile"); [|discriminate H]. injection H as <-. reflexivity. }
  rewrite E, make_dirs_in. destruct (f_dbt f); cbn; split; intros X; intuition (auto; congruence).
Qed.
(** C71: a folder that is initialised can be read, unless it is a dbt project *)
Theorem C71_init_read dirs z : exists f' z', init (Folder z None dirs) = Done f' /\ f_zenlytic f' = Some z' /\ (do t <- repo_type None [z'] ; reader_of t) = Done MetricsLayer /\ profile_of None f' = Done (CStr "my_dbt_profile").
Proof. do 2 eexists. split; [reflexivity|]. split; [reflexivity|]. split; reflexivity. Qed.
Theorem C71_init_dbt_refuted z d dirs f' : init (Folder z (Some d) dirs) = Done f' -> exists z', f_zenlytic f' = Some z' /\ (do t <- repo_type None [z'] ; reader_of t) = Raised (Py TypeError).
Proof.
  unfold init, init_project_file, init_directories. cbn [f_dbt f_zenlytic f_dirs]. destruct (index d "name"); [|discriminate]. cbn [andthen]. destruct (index d "profile"); [|discriminate]. cbn [andthen]. intros H. injection H as <-. eexists. split; reflexivity.
Qed.
(** init replaces the project file there is, and its profile *)
Theorem C71_init_replaces_refuted z v dirs : has z "profile" v -> v <> CStr "my_dbt_profile" ->
  profile_of None (Folder (Some z) None dirs) = Done v /\ exists f', init (Folder (Some z) None dirs) = Done f' /\ profile_of None f' <> Done v.
Proof. intros (l & -> & A) N. split; [unfold profile_of, get_profile; cbn; now rewrite A|]. eexists. split; [reflexivity|]. cbn. congruence. Qed.
(** C71: the kind of a repository is the one asked for, or that of its one project file, or metrics_layer *)
Theorem C71_kind k files : k <> "" -> repo_type (Some k) files = Done (CStr k) /\ (forall l v, assoc "mode" l = Some v -> repo_type None [CDict l] = Done v) /\ (forall l, assoc "mode" l = None -> repo_type None [CDict l] = Done (CStr "metrics_layer")) /\ repo_type None [] = Done (CStr "metrics_layer").
Proof. intros N. apply String.eqb_neq in N. unfold repo_type. rewrite N. split; [reflexivity|]. split; [intros l v A; cbn; now rewrite A|]. split; [intros l A; cbn; now rewrite A|reflexivity]. Qed.
(** C71: a folder is read by the reader of its kind, and by none if the kind is another *)
Theorem C71_reader l r : (do t <- repo_type None [CDict l] ; reader_of t) = Done r <->
  assoc "mode" l = Some (CStr "metricflow") /\ r = Metricflow \/ (assoc "mode" l = Some (CStr "metrics_layer") \/ assoc "mode" l = None) /\ r = MetricsLayer.
Proof.
  cbn [repo_type mode_of andthen]. destruct (assoc "mode" l) as [[|m|z|d]|]; cbn [reader_of]; try (split; [discriminate|intros [[E _]|[[E|E] _]]; discriminate E]).
  - destruct (String.eqb m "metricflow") eqn:A; [|destruct (String.eqb m "metrics_layer") eqn:B].
    + apply String.eqb_eq in A. subst m. split; [intros H; injection H as <-; auto|]. intros [[_ ->]|[[E|E] _]]; [reflexivity|discriminate E|discriminate E].
    + apply String.eqb_eq in B. subst m. split; [intros H; injection H as <-; auto|]. intros [[E _]|[_ ->]]; [discriminate E|reflexivity].
    + split; [discriminate|]. apply String.eqb_neq in A, B. intros [[E _]|[[E|E] _]]; try discriminate E; injection E as E; congruence.
  - split; [intros H; injection H as <-; auto|]. intros [[E _]|[_ ->]]; [discriminate E|reflexivity].
Qed.
(** with a second project file, below the folder, the kind written is not used *)
Theorem C71_two_files_refuted z z' r : repo_type None (z :: z' :: r) = Done (CStr "metrics_layer").
Proof. reflexivity. Qed.
(** C71: seeding uses the connection of the name given, or the only one *)
Fixpoint position (n : string) (l : list string) : option nat := match l with [] => None | x :: r => if String.eqb x n then Some 0 else option_map S (position n r) end.
Lemma by_name n l : forall i, (fix go (i : nat) (l : list string) := match l with [] => None | x :: r => if String.eqb x n then Some i else go (S i) r end) i l = option_map (plus i) (position n l).
Proof. induction l as [|x l IH]; intros i; [reflexivity|]. cbn [position]. destruct (String.eqb x n); [cbn; now rewrite Nat.add_0_r|]. rewrite IH. destruct (position n l); cbn; [now rewrite Nat.add_succ_r|reflexivity]. Qed.
Theorem C71_seed_connection names n i : n <> "" -> init_connection names (Some n) = Done (Some i) -> nth_error names i = Some n /\ forall j, j < i -> nth_error names j <> Some n.
Proof.
  intros N H. apply String.eqb_neq in N. unfold init_connection in H. rewrite N, by_name in H. injection H as H. destruct (position n names) as [j|] eqn:P; [|discriminate H]. cbn in H. injection H as ->. clear N. revert i P. induction names as [|x l IH]; intros i P; [discriminate P|]. cbn [position] in P. destruct (String.eqb x n) eqn:E.
  - injection P as <-. apply String.eqb_eq in E. subst. split; [reflexivity|]. intros j J. inversion J.
  - destruct (position n l) as [k|]; [|discriminate P]. injection P as <-. destruct (IH k eq_refl) as [A B]. split; [exact A|]. intros [|j] J; cbn; [apply String.eqb_neq in E; congruence|]. apply B. now apply Nat.succ_lt_mono.
Qed.
Theorem C71_only_connection names i : init_connection names None = Done i -> exists n, names = [n] /\ i = Some 0.
Proof. unfold init_connection. destruct names as [|a [|b r]]; try discriminate. intros H. injection H as <-. eauto. Qed.
(** a name that is not there is no connection, and is not said *)
Theorem C71_unknown_connection_refuted names n : n <> "" -> ~ In n names -> init_connection names (Some n) = Done None.
Proof.
  intros N I. apply String.eqb_neq in N. unfold init_connection. rewrite N, by_name. replace (position n names) with (@None nat); [reflexivity|]. induction names as [|x l IH]; [reflexivity|]. cbn [position]. destruct (String.eqb x n) eqn:E; [apply String.eqb_eq in E; exfalso; apply I; now left|]. rewrite <- IH; [reflexivity|]. intros J. apply I. now right.
Qed.

(** ** Cases *)
Definition dev : kwargs := [("type", CStr "snowflake"); ("account", CStr "xyz"); ("user", CStr "ann"); ("password", CStr "pw"); ("name", CStr "other"); ("database", CStr "db")].
Definition profiles : kwargs := [("config", CDict [("send", CStr "no")]); ("shop", CDict [("target", CStr "dev"); ("outputs", CDict [("dev", CDict dev); ("prod", CDict [("type", CStr "redshift"); ("host", CStr "h"); ("user", CStr "u"); ("password", CStr "p"); ("dbname", CStr "d")])])])].
Example C71_described : described profiles "shop" None dev /\ forall x, described profiles "shop" None x -> x = dev.
Proof.
  split; [do 3 eexists; split; [reflexivity|]; split; [right; split; reflexivity|split; reflexivity]|]. intros x (p & o & t & A & [B|[_ B]] & C & D); [discriminate B|]. vm_compute in A. injection A as <-. vm_compute in B. injection B as <-. vm_compute in C. injection C as <-. vm_compute in D. injection D as <-. reflexivity.
Qed.
Example C71_dev : exists kw o, connections_from_profile (Some (CDict profiles)) "/home/.dbt" "shop" None = Done [kw] /\ load_connection (fun _ => None) (fun _ _ => Err KeyError) (fun _ => false) kw = Ok o /\ attr o "name" = Ok (CStr "shop") /\ attr o "username" = Ok (CStr "ann").
Proof. do 2 eexists. split; [reflexivity|]. split; [vm_compute; reflexivity|]. split; reflexivity. Qed.
Example C71_prod : exists kw, connections_from_profile (Some (CDict profiles)) "/home/.dbt" "shop" (Some "prod") = Done [kw] /\ load_connection (fun _ => None) (fun _ _ => Err KeyError) (fun _ => false) kw = Err TypeError.
Proof. eexists. split; [reflexivity|]. vm_compute. reflexivity. Qed.
Example C71_config : connections_from_profile (Some (CDict profiles)) "d" "config" None = Raised (Py KeyError) /\ connections_from_profile (Some (CDict profiles)) "d" "shop" (Some "test") = Raised NoTarget /\ connections_from_profile (Some (CDict profiles)) "d" "other" None = Raised NoProfile.
Proof. repeat split. Qed.
Example C71_key_file_case : exists kw o, connections_from_profile (Some (CDict [("bq", CDict [("target", CStr "t"); ("outputs", CDict [("t", CDict [("type", CStr "bigquery"); ("keyfile", CStr "k.json")])])])])) "/d" "bq" None = Done [kw] /\
  load_connection (fun _ => None) (fun d s => match d with CStr "/d" => Ok (CDict [("project_id", CStr s)]) | _ => Err KeyError end) (fun _ => false) kw = Ok o /\ attr o "project_id" = Ok (CStr "k.json").
Proof. do 2 eexists. split; [reflexivity|]. split; [vm_compute; reflexivity|reflexivity]. Qed.
Example C71_dbt_folder : exists f', init (Folder None (Some (CDict [("name", CStr "n"); ("profile", CStr "shop")])) ["models"]) = Done f' /\ f_dirs f' = ["models"; "dashboards"] /\ profile_of None f' = Done (CStr "shop").
Proof. eexists. split; [reflexivity|]. split; reflexivity. Qed.
Example C71_seed_case : init_connection ["a"; "b"; "b"] (Some "b") = Done (Some 1) /\ init_connection ["a"; "b"] None = Raised (Py ValueError).
Proof. split; reflexivity. Qed.

Print Assumptions C71_profile.
Print Assumptions C71_profile_found.
Print Assumptions C71_no_file.
Print Assumptions C71_no_profile.
Print Assumptions C71_no_target.
Print Assumptions C71_no_default_refuted.
Print Assumptions C71_name.
Print Assumptions C71_snowflake.
Print Assumptions C71_redshift_refuted.
Print Assumptions C71_types_refuted.
Print Assumptions C71_databricks_refuted.
Print Assumptions C71_key_file.
Print Assumptions C71_profile_of.
Print Assumptions C71_hidden_profile_refuted.
Print Assumptions C71_init_folders.
Print Assumptions C71_init_read.
Print Assumptions C71_init_dbt_refuted.
Print Assumptions C71_init_replaces_refuted.
Print Assumptions C71_kind.
Print Assumptions C71_reader.
Print Assumptions C71_two_files_refuted.
Print Assumptions C71_seed_connection.
Print Assumptions C71_only_connection.
Print Assumptions C71_unknown_connection_refuted.
