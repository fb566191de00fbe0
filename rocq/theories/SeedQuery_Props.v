(** C83: seeding looks at exactly the columns of the schema and the table it is asked for, with the comment of that table, and
    files the views it makes under a model of the connection they were read from, where the project reads them back. *)
From Coq Require Import List String Ascii ZArith Bool Arith Lia.
From Verif Require Import PyBase PyStr Connections_Model Seed_Model SeedQuery_Model.
From Verif Require Files_Model.
Import ListNotations.
Local Open Scope string_scope.
Local Open Scope list_scope.

(** * What is asked for *)

Definition same_name (wanted : option string) (name : string) : bool :=
  match wanted with None => true | Some w => String.eqb w "" || String.eqb (lower w) (lower name) end.
(** a column (with its database) of the database [d] and of the schema and table of [p], in any letter case *)
Definition asked (d : string) (p : place) (e : string * col) : bool :=
  String.eqb (fst e) d && same_name (p_schema p) (c_schema (snd e)) && same_name (p_table p) (c_table (snd e)).
(** the database meant: that given, or else that of the connection's session *)
Definition meant (home : string) (p : place) : string :=
  match p_database p with Some d => if String.eqb d "" then home else d | None => home end.
Definition ignores_database (wh : cls) : bool := match wh with Druid | Trino => true | _ => false end.

(** the names are spelled as the warehouse spells them: the schema, and the table when there is a schema too *)
Definition spelled (d : string) (p : place) (cat : catalogue) : Prop :=
  forall e s, In e cat -> asked d p e = true -> p_schema p = Some s -> s <> "" ->
  c_schema (snd e) = s /\ forall t, p_table p = Some t -> t <> "" -> c_table (snd e) = t.
Fixpoint plain (s : string) : bool := match s with EmptyString => true | String c r => negb (Ascii.eqb c "'") && plain r end.
Definition plain_opt (o : option string) : bool := match o with Some s => plain s | None => true end.

(** * Lemmas *)

Lemma given_some o s : given o = Some s <-> o = Some s /\ s <> "".
Proof.
  unfold given. destruct o as [[|c r]|]; split; intros H; try discriminate.
  - now destruct H as [[= <-] N].
  - injection H as <-; split; congruence.
  - now destruct H.
  - now destruct H.
Qed.
Lemma given_none o : given o = None <-> o = None \/ o = Some "".
Proof. unfold given; destruct o as [[|c r]|]; split; intros H; auto; try discriminate; destruct H; discriminate. Qed.

Lemma same_given o x : same_name o x = match given o with Some s => String.eqb (lower x) (lower s) | None => true end.
Proof. unfold same_name, given. destruct o as [[|c r]|]; cbn [String.eqb orb]; auto. now rewrite String.eqb_sym. Qed.

Lemma literal_plain s : plain s = true -> literal ("'" ++ s ++ "'") = Some s.
Proof.
  intros P. change (literal ("'" ++ s ++ "'")) with (literal_body (s ++ "'")%string).
  induction s as [|c r IH]; [reflexivity|]. cbn [plain] in P. apply andb_prop in P as [Pc Pr].
  cbn [append literal_body]. unfold quote. destruct (Ascii.eqb c "'"); [discriminate|]. now rewrite (IH Pr).
Qed.

(** a literal that is read is the name itself, or shorter *)
Lemma literal_short : forall n s x, String.length s <= n -> literal_body (s ++ "'")%string = Some x ->
  x = s /\ plain s = true \/ String.length x < String.length s.
Proof.
  induction n as [|n IH]; intros s x L R.
  { destruct s; [|cbn in L; lia]. cbn in R. injection R as <-. now left. }
  destruct s as [|c r]; [cbn in R; injection R as <-; now left|].
  cbn [append literal_body] in R. cbn [String.length] in L. unfold quote in R. destruct (Ascii.eqb c "'") eqn:C.
  - apply Ascii.eqb_eq in C as ->. destruct r as [|d r']; [discriminate|]. cbn [append] in R. destruct (Ascii.eqb d "'") eqn:D; [|discriminate].
    destruct (literal_body (r' ++ "'")%string) as [y|] eqn:B; [|discriminate]. cbn in R. injection R as <-.
    right. cbn [String.length] in *. destruct (IH r' y ltac:(lia) B) as [[-> _]|Q]; lia.
  - destruct (literal_body (r ++ "'")%string) as [y|] eqn:B; [|discriminate]. cbn in R. injection R as <-.
    cbn [String.length plain]. rewrite C. destruct (IH r y ltac:(lia) B) as [[-> P]|Q]; [left|right]; auto. lia.
Qed.
Lemma literal_read s x : literal ("'" ++ s ++ "'") = Some x -> x = s /\ plain s = true \/ String.length x < String.length s.
Proof. change (literal ("'" ++ s ++ "'")) with (literal_body (s ++ "'")%string). apply (literal_short (String.length s)); auto. Qed.

Lemma lower_size s : String.length (lower s) = String.length s.
Proof. induction s as [|c r IH]; cbn [lower String.length]; auto. Qed.

Lemma In_firstn {A} n (l : list A) x : In x (firstn n l) -> In x l.
Proof. revert l; induction n as [|n IH]; intros [|y l] H; cbn in *; auto; [easy|]. destruct H; auto. Qed.

Lemma filter_eq {A} (f g : A -> bool) l : (forall x, In x l -> f x = g x) -> filter f l = filter g l.
Proof. induction l as [|x l IH]; intros H; [reflexivity|]. cbn [filter]. rewrite (H x (or_introl eq_refl)), IH; auto. intros y Y; apply H; now right. Qed.
Lemma filter_map {A B} (f : B -> bool) (g : A -> B) l : filter f (map g l) = map g (filter (fun x => f (g x)) l).
Proof. induction l as [|x l IH]; [reflexivity|]. cbn [map filter]. destruct (f (g x)); cbn [map]; now rewrite IH. Qed.
Lemma filter_filter {A} (f g : A -> bool) l : filter f (filter g l) = filter (fun x => g x && f x) l.
Proof. induction l as [|x l IH]; [reflexivity|]. cbn [filter]. destruct (g x); cbn [filter andb]; [destruct (f x); now rewrite IH|assumption]. Qed.

Lemma seen_run wh home cat p rows : seen wh home cat p = Ok (Some rows) ->
  exists src ks raw, source_of wh p = Ok src /\ literals (conditions p) = Some ks /\
    raw = filter (fun c => forallb (holds c) ks) (map snd (filter (in_source home src) cat)) /\
    rows = chosen (given (p_schema p)) (given (p_table p)) (match wh with Snowflake => firstn (Z.to_nat 10000) raw | _ => raw end).
Proof.
  unfold seen, columns_query. destruct (source_of wh p) as [src|e] eqn:S0; cbn [bind]; [|discriminate].
  unfold run; cbn [q_where q_source q_limit]. destruct (literals (conditions p)) as [ks|] eqn:K; [|discriminate]. cbn [option_map].
  intros H. injection H as <-. exists src, ks, (filter (fun c => forallb (holds c) ks) (map snd (filter (in_source home src) cat))).
  repeat split; auto. destruct wh; reflexivity.
Qed.

Lemma source_db wh home p src e : source_of wh p = Ok src -> ignores_database wh = false \/ meant home p = home -> in_source home src e = true ->
  fst e = meant home p.
Proof.
  intros S0 I H. assert (O : src = Own -> fst e = meant home p).
  { intros ->. destruct I as [I| ->]; [|now apply String.eqb_eq in H].
    destruct wh; cbn in I, S0; try discriminate; destruct (given (p_database p)), (given (p_schema p)); discriminate. }
  destruct src as [|d|d s]; auto; clear O.
  - apply String.eqb_eq in H as ->. destruct wh; cbn in S0; try discriminate.
    all: try (destruct (given (p_database p)) as [x|] eqn:G; [|discriminate]; injection S0 as ->; apply given_some in G as [G N]; unfold meant; rewrite G;
      destruct (String.eqb_spec d ""); congruence).
    destruct (given (p_database p)), (given (p_schema p)); discriminate.
  - cbn [in_source] in H. apply andb_prop in H as [H _]. apply String.eqb_eq in H as ->. destruct wh; cbn in S0; try discriminate.
    all: try (destruct (given (p_database p)); discriminate).
    destruct (given (p_database p)) as [x|] eqn:G, (given (p_schema p)); try discriminate. injection S0 as -> _.
    apply given_some in G as [G N]; unfold meant; rewrite G. destruct (String.eqb_spec d ""); congruence.
Qed.

(** * Which rows *)

(** Whatever the warehouse answers, only columns of the schema and the table asked for reach the views; and of the database asked
    for, unless the warehouse is Druid or Trino. *)
Theorem C83_nothing_else wh home cat p rows c : seen wh home cat p = Ok (Some rows) -> In c rows ->
  ignores_database wh = false \/ meant home p = home ->
  exists e, In e cat /\ snd e = c /\ asked (meant home p) p e = true.
Proof.
  intros H I G. apply seen_run in H as (src & ks & raw & S0 & K & -> & ->).
  unfold chosen in I. apply filter_In in I as [I F].
  assert (J : In c (map snd (filter (in_source home src) cat))).
  { destruct wh; try apply In_firstn in I; now apply filter_In in I as [I _]. }
  apply in_map_iff in J as (e & <- & J). apply filter_In in J as [J S1]. exists e. repeat split; auto.
  unfold asked. rewrite !same_given, (source_db wh home p src e S0 G S1), String.eqb_refl. exact F.
Qed.
Print Assumptions C83_nothing_else.

(** Refuted: Druid and Trino read their own database, whatever database is asked for; no column of another one is ever seen. *)
Theorem C83_other_database_refuted wh home cat p rows c : ignores_database wh = true -> meant home p <> home ->
  seen wh home cat p = Ok (Some rows) -> In c rows -> exists e, In e cat /\ snd e = c /\ fst e = home.
Proof.
  intros W _ H I. apply seen_run in H as (src & ks & raw & S0 & K & -> & ->). unfold chosen in I. apply filter_In in I as [I _].
  assert (J : In c (map snd (filter (in_source home src) cat))) by (destruct wh; try discriminate W; now apply filter_In in I as [I _]).
  apply in_map_iff in J as (e & <- & J). apply filter_In in J as [J S1]. exists e. repeat split; auto.
  destruct wh; cbn in W, S0; try discriminate; injection S0 as <-; now apply String.eqb_eq in S1.
Qed.
Print Assumptions C83_other_database_refuted.

Lemma literals_plain p : plain_opt (p_schema p) = true -> plain_opt (p_table p) = true -> literals (conditions p) = Some (conditions p).
Proof.
  intros PS PT. unfold conditions. destruct (given (p_schema p)) as [s|] eqn:GS; [|reflexivity].
  apply given_some in GS as [GS _]. rewrite GS in PS. destruct (given (p_table p)) as [t|] eqn:GT.
  - apply given_some in GT as [GT _]. rewrite GT in PT. cbn [literals]. now rewrite (literal_plain s PS), (literal_plain t PT).
  - cbn [literals]. now rewrite (literal_plain s PS).
Qed.

Lemma kept_asked wh home cat p src e : source_of wh p = Ok src -> ignores_database wh = false \/ meant home p = home ->
  spelled (meant home p) p cat -> In e cat ->
  (in_source home src e && forallb (holds (snd e)) (conditions p)) &&
  (match given (p_schema p) with Some s => String.eqb (lower (c_schema (snd e))) (lower s) | None => true end &&
   match given (p_table p) with Some t => String.eqb (lower (c_table (snd e))) (lower t) | None => true end)
  = asked (meant home p) p e.
Proof.
  intros S0 G SP I. destruct (asked (meant home p) p e) eqn:A.
  - assert (A' := A). unfold asked in A'. rewrite !same_given in A'. apply andb_prop in A' as [A' T]. apply andb_prop in A' as [D SC]. rewrite SC, T.
    cbn [andb]. rewrite andb_true_r. apply andb_true_intro. split.
    + destruct src as [|d|d s]; cbn [in_source].
      * destruct G as [G|G]; [|now rewrite <- G].
        destruct wh; cbn in G, S0; try discriminate; destruct (given (p_database p)), (given (p_schema p)); discriminate.
      * destruct wh; cbn in S0; try discriminate.
        all: try (destruct (given (p_database p)) as [x|] eqn:GD; [|discriminate]; injection S0 as ->; apply given_some in GD as [GD N];
          unfold meant in D; rewrite GD in D; destruct (String.eqb_spec d ""); [congruence|exact D]).
        destruct (given (p_database p)), (given (p_schema p)); discriminate.
      * destruct wh; cbn in S0; try discriminate. all: try (destruct (given (p_database p)); discriminate).
        destruct (given (p_database p)) as [x|] eqn:GD, (given (p_schema p)) as [y|] eqn:GS; try discriminate. injection S0 as -> ->.
        apply given_some in GD as [GD N]. apply given_some in GS as [GS M]. destruct (SP e s I A GS M) as [-> _]. rewrite String.eqb_refl, andb_true_r.
        unfold meant in D; rewrite GD in D; destruct (String.eqb_spec d ""); [congruence|exact D].
    + unfold conditions. destruct (given (p_schema p)) as [s|] eqn:GS; [|reflexivity]. apply given_some in GS as [GS M].
      destruct (SP e s I A GS M) as [HS HT]. destruct (given (p_table p)) as [t|] eqn:GT; cbn; rewrite HS, String.eqb_refl; [|reflexivity].
      apply given_some in GT as [GT N]. now rewrite (HT t GT N), String.eqb_refl.
  - destruct (in_source home src e) eqn:IS; [|reflexivity]. destruct (forallb (holds (snd e)) (conditions p)); [|reflexivity]. cbn [andb].
    unfold asked in A. rewrite !same_given, (source_db wh home p src e S0 G IS), String.eqb_refl in A. exact A.
Qed.

Lemma filter_le {A} (f g : A -> bool) l : (forall x, In x l -> f x = true -> g x = true) -> List.length (filter f l) <= List.length (filter g l).
Proof.
  induction l as [|x l IH]; intros H; [auto|]. cbn [filter].
  assert (L := IH (fun y Y => H y (or_intror Y))). destruct (f x) eqn:F; [rewrite (H x (or_introl eq_refl) F); cbn; lia|].
  destruct (g x); cbn; lia.
Qed.

(** what the limit of Snowflake counts: the columns asked for; without a schema every column of the database, even if a table is
    asked for *)
Definition counted (p : place) : place :=
  match p_schema p with
  | Some s => if String.eqb s "" then Place (p_database p) None None else p
  | None => Place (p_database p) None None
  end.
Definition fits (d : string) (p : place) (cat : catalogue) : Prop := List.length (filter (asked d (counted p)) cat) <= Z.to_nat 10000.

(** With names spelled as the warehouse spells them and free of quotes, and no more than 10000 columns for Snowflake, the rows seen
    are exactly the columns asked for, each once, in the order of the warehouse. *)
Theorem C83_all_partial wh home cat p src : source_of wh p = Ok src -> ignores_database wh = false \/ meant home p = home ->
  spelled (meant home p) p cat -> plain_opt (p_schema p) = true -> plain_opt (p_table p) = true ->
  wh <> Snowflake \/ fits (meant home p) p cat ->
  seen wh home cat p = Ok (Some (map snd (filter (asked (meant home p) p) cat))).
Proof.
  intros S0 G SP PS PT L. unfold seen, columns_query. rewrite S0. cbn [bind]. unfold run; cbn [q_where q_source q_limit].
  rewrite (literals_plain p PS PT). cbn [option_map]. do 2 f_equal.
  set (raw := filter (fun c => forallb (holds c) (conditions p)) (map snd (filter (in_source home src) cat))).
  assert (C : chosen (given (p_schema p)) (given (p_table p)) raw = map snd (filter (asked (meant home p) p) cat)).
  { unfold raw, chosen. rewrite !filter_map, !filter_filter. f_equal. apply filter_eq. intros e I. rewrite <- (kept_asked wh home cat p src e); auto.
    now rewrite andb_assoc. }
  rewrite <- C. destruct wh; auto. destruct L as [L|L]; [congruence|]. rewrite firstn_all2; [reflexivity|].
  refine (Nat.le_trans _ _ _ _ L). unfold raw. rewrite filter_map, filter_filter, map_length. apply filter_le.
  intros e I H. apply andb_prop in H as [IS CS]. assert (D := source_db Snowflake home p src e S0 G IS).
  unfold asked, counted. rewrite D. unfold conditions in CS.
  assert (ID : String.eqb (meant home p) (meant home p) = true) by apply String.eqb_refl.
  destruct (p_schema p) as [s|] eqn:PSE; [|cbn; now rewrite ID]. destruct (String.eqb_spec s "") as [Z0|Z0]; [cbn; now rewrite ID|].
  rewrite ID. cbn [andb]. rewrite !same_given, PSE. assert (GS : given (Some s) = Some s) by (apply given_some; auto). rewrite GS in CS |- *.
  destruct (given (p_table p)) as [t|]; cbn in CS; apply andb_prop in CS as [C1 C2]; apply String.eqb_eq in C1; rewrite C1, String.eqb_refl; [|reflexivity].
  apply andb_prop in C2 as [C2 _]. apply String.eqb_eq in C2. now rewrite C2, String.eqb_refl.
Qed.
Print Assumptions C83_all_partial.

(** Refuted: the later filter reads the schema in any letter case, but the query asks for the schema as it was typed. A schema
    typed in letters no schema of the warehouse has gives nothing, whatever is there. *)
Theorem C83_letter_case_refuted wh home cat p rows s : p_schema p = Some s -> s <> "" -> (forall e, In e cat -> c_schema (snd e) <> s) ->
  plain s = true -> seen wh home cat p = Ok (Some rows) -> rows = [].
Proof.
  intros PS N F PL H. apply seen_run in H as (src & ks & raw & S0 & K & -> & ->).
  assert (GS : given (p_schema p) = Some s) by (apply given_some; auto).
  assert (E : filter (fun c => forallb (holds c) ks) (map snd (filter (in_source home src) cat)) = []).
  { destruct (filter _ _) as [|c l] eqn:Q; [reflexivity|exfalso]. assert (I : In c (c :: l)) by now left. rewrite <- Q in I.
    apply filter_In in I as [I X]. apply in_map_iff in I as (e & <- & I). apply filter_In in I as [I _]. apply (F e I).
    unfold conditions in K. rewrite GS in K. destruct (given (p_table p)) as [t|]; cbn [literals] in K; rewrite (literal_plain s PL) in K.
    - destruct (literal ("'" ++ t ++ "'")); [|discriminate]. injection K as <-. cbn in X. apply andb_prop in X as [X _]. now apply String.eqb_eq in X.
    - injection K as <-. cbn in X. apply andb_prop in X as [X _]. now apply String.eqb_eq in X. }
  rewrite E. destruct wh; rewrite ?firstn_nil; reflexivity.
Qed.
Print Assumptions C83_letter_case_refuted.

(** Refuted: the names are put into the query as they are. A schema with a quote in it is refused by the warehouse or gives
    nothing, whatever columns it has. *)
Theorem C83_quote_refuted wh home cat p s r : p_schema p = Some s -> plain s = false -> seen wh home cat p = Ok r ->
  r = None \/ r = Some [].
Proof.
  intros PS PL H. assert (N : s <> "") by (intros ->; discriminate). assert (GS : given (p_schema p) = Some s) by (apply given_some; auto).
  destruct r as [rows|]; [right|now left]. f_equal. apply seen_run in H as (src & ks & raw & S0 & K & -> & ->).
  match goal with |- chosen _ _ ?l = [] => assert (E : forall c, In c l -> String.length (c_schema c) < String.length s) end.
  { intros c I. assert (J : In c (filter (fun c => forallb (holds c) ks) (map snd (filter (in_source home src) cat)))).
    { destruct wh; try exact I. now apply In_firstn in I. }
    apply filter_In in J as [_ X]. unfold conditions in K. rewrite GS in K.
    destruct (given (p_table p)) as [t|]; cbn [literals] in K; destruct (literal ("'" ++ s ++ "'")) as [x|] eqn:LX; try discriminate.
    - destruct (literal ("'" ++ t ++ "'")); [|discriminate]. injection K as <-. cbn in X. apply andb_prop in X as [X _]. apply String.eqb_eq in X. subst x.
      destruct (literal_read _ _ LX) as [[_ Q]|Q]; [congruence|assumption].
    - injection K as <-. cbn in X. apply andb_prop in X as [X _]. apply String.eqb_eq in X. subst x.
      destruct (literal_read _ _ LX) as [[_ Q]|Q]; [congruence|assumption]. }
  match goal with |- chosen _ _ ?l = [] => revert E; generalize l; intros l0 E end.
  unfold chosen. rewrite GS. destruct (filter _ _) as [|c l] eqn:Q; [reflexivity|exfalso].
  assert (I : In c (c :: l)) by now left. rewrite <- Q in I. apply filter_In in I as [I X]. apply andb_prop in X as [X _].
  apply String.eqb_eq in X. assert (LL := f_equal String.length X). rewrite !lower_size in LL. specialize (E c I). lia.
Qed.
Print Assumptions C83_quote_refuted.

Lemma filter_len {A} (f : A -> bool) l : List.length (filter f l) <= List.length l.
Proof. induction l as [|x l IH]; cbn; [auto|]. destruct (f x); cbn; lia. Qed.

(** Refuted: Snowflake gives at most 10000 columns in all; of a schema with more, the rest is left out without a word. *)
Theorem C83_limit_refuted home cat p rows : seen Snowflake home cat p = Ok (Some rows) ->
  List.length rows <= Z.to_nat 10000 /\
  (Z.to_nat 10000 < List.length (filter (asked (meant home p) p) cat) -> List.length rows < List.length (filter (asked (meant home p) p) cat)).
Proof.
  intros H. apply seen_run in H as (src & ks & raw & S0 & K & R & ->).
  assert (B : List.length (chosen (given (p_schema p)) (given (p_table p)) (firstn (Z.to_nat 10000) raw)) <= Z.to_nat 10000).
  { unfold chosen. eapply Nat.le_trans; [apply filter_len|]. apply firstn_le_length. }
  split; [exact B|]. intros M. lia.
Qed.
Print Assumptions C83_limit_refuted.

(** When seeding asks nothing: without a database (Druid and Trino need none), and for BigQuery without a schema. *)
Theorem C83_refused wh home cat p e :
  seen wh home cat p = Err e <->
  e = ValueError /\ ignores_database wh = false /\
  (given (p_database p) = None \/ wh = BigQuery /\ given (p_schema p) = None).
Proof.
  unfold seen, columns_query. destruct (source_of wh p) as [src|x] eqn:S0; cbn [bind].
  - split; [discriminate|]. intros (_ & I & D). destruct wh; cbn in I, S0; try discriminate.
    all: destruct (given (p_database p)) as [d|]; try discriminate; destruct D as [D|[D1 D2]]; try discriminate; try congruence.
    rewrite D2 in S0. discriminate.
  - split.
    + intros H. injection H as <-. destruct wh; cbn in S0; try discriminate.
      all: destruct (given (p_database p)) as [d|] eqn:GD; try discriminate; try (injection S0 as <-; now repeat split; auto).
      destruct (given (p_schema p)) as [s|] eqn:GS; try discriminate. injection S0 as <-. repeat split; auto.
    + intros (-> & I & D). destruct wh; cbn in S0; try discriminate; destruct (given (p_database p)); try discriminate; try congruence.
      all: destruct (given (p_schema p)); try discriminate; congruence.
Qed.
Print Assumptions C83_refused.

(** Refuted: a Databricks connection without a database is refused, though its columns query has a branch for it and its table
    query is written for it. *)
Theorem C83_databricks_refuted p : given (p_database p) = None ->
  columns_query Databricks p = Err ValueError /\ exists t, table_query Databricks p = Ok t.
Proof. intros D. unfold columns_query, table_query; cbn. rewrite D. split; [reflexivity|]. eexists; reflexivity. Qed.
Print Assumptions C83_databricks_refuted.

(** What is looked at when something is not given: the database and the schema of the connection; a table may be given as the name
    of its SQL file. *)
Theorem C83_defaults db sc cdb csc table d s : db <> "" -> sc <> "" ->
  place_of (Some db) (Some sc) None cdb csc = Place (Some db) (Some sc) None /\
  place_of None None None cdb csc = Place cdb csc None /\
  place_of (Some "") (Some "") (Some "") cdb csc = Place cdb csc None /\
  (table <> "" -> p_table (place_of d s (Some table) cdb csc) = Some (replace ".sql" "" table)).
Proof.
  intros D C0. unfold place_of, or_else. destruct db as [|a db]; [congruence|]. destruct sc as [|b sc]; [congruence|].
  repeat split; auto. intros T. destruct table; [congruence|reflexivity].
Qed.
Print Assumptions C83_defaults.

(** * The text *)

Definition text (wh : cls) (d s t : option string) : res string := q <- columns_query wh (Place d s t) ;; Ok (text_of q).

Lemma given_id x : x <> "" -> given (Some x) = Some x.
Proof. intros N. now apply given_some. Qed.

Lemma str_app a b c : ((a ++ b) ++ c = a ++ (b ++ c))%string.
Proof. induction a as [|x a IH]; cbn [append]; [reflexivity|]. now rewrite IH. Qed.
Lemma str_nil a : (a ++ "" = a)%string.
Proof. induction a as [|x a IH]; cbn [append]; [reflexivity|]. now rewrite IH. Qed.

Theorem C83_text d s t : d <> "" -> s <> "" -> t <> "" ->
  text Snowflake (Some d) (Some s) (Some t) =
    Ok ("SELECT table_catalog, table_schema, table_name, column_name, data_type, comment as comment FROM " ++ d ++
        ".INFORMATION_SCHEMA.COLUMNS WHERE TABLE_SCHEMA = '" ++ s ++ "' AND TABLE_NAME = '" ++ t ++ "' LIMIT 10000;")%string /\
  text Databricks (Some d) (Some s) None =
    Ok ("SELECT table_catalog, table_schema, table_name, column_name, data_type, comment as comment FROM " ++ d ++
        ".INFORMATION_SCHEMA.COLUMNS WHERE TABLE_SCHEMA = '" ++ s ++ "';")%string /\
  text BigQuery (Some d) (Some s) (Some t) =
    Ok ("SELECT table_catalog, table_schema, table_name, column_name, data_type FROM `" ++ d ++ "." ++ s ++
        "`.INFORMATION_SCHEMA.COLUMNS WHERE TABLE_SCHEMA = '" ++ s ++ "' AND TABLE_NAME = '" ++ t ++ "';")%string /\
  (forall wh, In wh [Redshift; Postgres; SQLServer; AzureSynapse; DuckDB] -> text wh (Some d) None (Some t) =
    Ok ("SELECT table_catalog, table_schema, table_name, column_name, data_type FROM " ++ d ++ ".INFORMATION_SCHEMA.COLUMNS;")%string) /\
  (forall wh db, In wh [Druid; Trino] -> text wh db (Some s) (Some t) =
    Ok ("SELECT TABLE_CATALOG, TABLE_SCHEMA, TABLE_NAME, COLUMN_NAME, DATA_TYPE FROM INFORMATION_SCHEMA.COLUMNS WHERE TABLE_SCHEMA = '" ++ s ++
        "' AND TABLE_NAME = '" ++ t ++ "'")%string).
Proof.
  intros D C0 T. unfold text, columns_query, source_of, conditions. cbn [p_database p_schema p_table].
  rewrite (given_id d D), (given_id s C0), (given_id t T). cbn [given bind].
  unfold text_of, where_text, limit_text, source_text; cbn [q_select q_source q_where q_limit q_end map cond_text fst snd].
  assert (LIM : nat_str (Z.to_nat 10000) = "10000") by (vm_compute; reflexivity).
  assert (CT : forall a b : string, cond_text (a, b) = (a ++ " = '" ++ b ++ "'")%string) by reflexivity.
  Local Ltac txt := cbn [bind q_select q_source q_where q_limit q_end map String.concat select_of ending no_semicolon append]; repeat (progress (rewrite ?str_app, ?str_nil; cbn [append])); reflexivity.
  repeat split.
  - rewrite LIM, !CT. txt.
  - rewrite !CT. txt.
  - rewrite !CT. txt.
  - intros wh [<-|[<-|[<-|[<-|[<-|[]]]]]]; txt.
  - intros wh db [<-|[<-|[]]]; cbn [bind q_where map]; rewrite !CT; txt.
Qed.
Print Assumptions C83_text.

(** * The comments of tables *)

(** The comment of a view is that of the table it is made from, when no other table asked for has its name in any letter case. *)
Theorem C83_comment_partial p l s t c : In (s, t, c) l -> same_name (p_schema p) s = true -> same_name (p_table p) t = true ->
  (forall s' t' c', In (s', t', c') l -> same_name (p_schema p) s' = true -> lower t' = lower t -> c' = c) ->
  table_comment p l t = Ok c.
Proof.
  intros I S0 T0 U. unfold table_comment.
  assert (CH : forall r, In r (chosen_tables p l) <-> In r l /\ same_name (p_schema p) (fst (fst r)) = true /\ same_name (p_table p) (snd (fst r)) = true).
  { intros r. unfold chosen_tables. rewrite filter_In, andb_true_iff, <- !same_given. tauto. }
  assert (J : In (s, t, c) (chosen_tables p l)) by (apply CH; auto).
  destruct (chosen_tables p l) as [|r0 rows] eqn:Q; [destruct J|]. rewrite <- Q in *.
  destruct (find _ _) as [[[s' t'] c']|] eqn:F.
  - apply find_some in F as [F E]. cbn [fst snd] in *. apply String.eqb_eq in E. apply CH in F as (F & FS & _). f_equal. now apply (U s' t').
  - exfalso. assert (X := find_none _ _ F _ J). cbn [fst snd] in X. now rewrite String.eqb_refl in X.
Qed.
Print Assumptions C83_comment_partial.

(** Refuted: without a schema, a table of the same name in another schema lends its comment; and a table with columns but no row
    among the tables stops the seeding as soon as any other table has one. *)
Theorem C83_comment_refuted db s1 s2 t c1 c2 u :
  table_comment (Place db None None) [(s1, t, c1); (s2, t, c2)] t = Ok c1 /\
  (lower u <> lower t -> table_comment (Place db None None) [(s1, t, c1)] u = Err IndexError) /\
  table_comment (Place db None None) [] u = Ok None.
Proof.
  repeat split.
  - unfold table_comment; cbn. now rewrite String.eqb_refl.
  - intros N. unfold table_comment; cbn. destruct (String.eqb_spec (lower t) (lower u)); [congruence|reflexivity].
Qed.
Print Assumptions C83_comment_refuted.

(** * Counting the values of columns *)

Lemma lower_app a b : lower (a ++ b)%string = (lower a ++ lower b)%string.
Proof. induction a as [|x a IH]; cbn [append lower]; [reflexivity|]. now rewrite IH. Qed.

(** The name of a counted column is read back from the name of its count, whatever the column is called and in whatever letter case
    the warehouse gives it back. *)
Theorem C83_counted column result : lower result = lower (column ++ "_cardinality") -> counted_column result = lower column.
Proof.
  intros H. unfold counted_column. rewrite H, lower_app.
  assert (B : before_last "_cardinality" (lower column ++ lower "_cardinality") = Some (lower column)); [|now rewrite B].
  generalize (lower column). intros x. induction x as [|c r IH]; [vm_compute; reflexivity|].
  cbn [append before_last]. now rewrite IH.
Qed.
Print Assumptions C83_counted.

(** every candidate is counted once, by its own name, in the order of the columns *)
Theorem C83_counts wh db columns schema table : exists counts,
  cardinalities_query wh db columns schema table = ("SELECT " ++ String.concat ", " counts ++ cardinality_from wh db schema table ++ (if ignores_database wh then "" else ";"))%string /\
  Forall2 (fun c t => exists f g q, In q ["`"; dq] /\ t = (f ++ q ++ c ++ q ++ g ++ " as " ++ q ++ c ++ "_cardinality" ++ q)%string) columns counts.
Proof.
  exists (map (fun c => count_text wh c c) columns). split.
  - unfold cardinalities_query, ending. now destruct wh.
  - induction columns as [|c r IH]; cbn [map]; constructor; auto. clear IH.
    destruct wh; unfold count_text, dquote, backtick.
    all: match goal with
         | |- exists f g q, _ /\ (?F ++ (dq ++ _) ++ ?R)%string = _ => exists F
         | |- exists f g q, _ /\ (?F ++ ("`" ++ _) ++ ?R)%string = _ => exists F
         end.
    all: match goal with
         | |- exists g q, _ /\ (_ ++ (dq ++ _) ++ ?G ++ _)%string = _ => exists (String.substring 0 (String.length G - 4) G), dq
         | |- exists g q, _ /\ (_ ++ (_ ++ _) ++ ?G ++ _)%string = _ => exists (String.substring 0 (String.length G - 4) G), "`"
         end.
    all: split; [cbn; auto|]; cbn [String.length Nat.sub String.substring]; rewrite ?str_app; reflexivity.
Qed.
Print Assumptions C83_counts.

(** * The model and the folders *)

(** The views belong to a model of the connection they were read from, if the project has no model (one is written) or several. *)
Theorem C83_model_partial models connection n : List.length models <> 1 -> get_model_name models connection = Ok n ->
  In (n, connection) (models ++ make_models models connection).
Proof.
  intros L H. destruct models as [|m [|m' r]]; [|cbn in L; lia|].
  - cbn in H. injection H as <-. now left.
  - unfold get_model_name in H. destruct (find _ _) as [[a b]|] eqn:F; [|discriminate]. injection H as <-. apply find_some in F as [I E].
    cbn [snd fst] in *. apply String.eqb_eq in E as ->. apply in_or_app. now left.
Qed.
Print Assumptions C83_model_partial.

Theorem C83_no_model models connection e : get_model_name models connection = Err e <->
  e = ValueError /\ 1 < List.length models /\ forall m, In m models -> snd m <> connection.
Proof.
  destruct models as [|m [|m' r]]; cbn [get_model_name].
  - split; [discriminate|]. intros (_ & L & _). cbn in L. lia.
  - split; [discriminate|]. intros (_ & L & _). cbn in L. lia.
  - destruct (find _ _) as [x|] eqn:F.
    + split; [discriminate|]. intros (_ & _ & N). apply find_some in F as [I E]. apply String.eqb_eq in E. now destruct (N x I).
    + split.
      * intros H; injection H as <-. repeat split; [cbn; lia|]. intros y I. assert (X := find_none _ _ F y I). cbn beta in X. now apply String.eqb_neq in X.
      * intros (-> & _). reflexivity.
Qed.
Print Assumptions C83_no_model.

(** Refuted: the views go to the only model of the project whatever its connection is, and no model of their own connection is
    written. *)
Theorem C83_one_model_refuted m connection : snd m <> connection ->
  get_model_name [m] connection = Ok (fst m) /\ ~ In connection (map snd ([m] ++ make_models [m] connection)).
Proof. intros N. split; [reflexivity|]. cbn. intuition. Qed.
Print Assumptions C83_one_model_refuted.

(** The folders written to are folders read when the project is loaded again. A project without a file has no models; an empty
    project file is set aside. *)
Theorem C83_read_back_partial root models zp m v :
  (zp = None -> models = []) -> zp <> Some [] ->
  (exists a b, read_folders root zp "model-paths" = Ok a /\ read_folders root zp "view-paths" = Ok b) ->
  write_folders (match zp with Some z => z | None => [] end) = Ok (m, v) ->
  exists a b, read_folders root (project_after models zp) "model-paths" = Ok a /\ In (Files_Model.abs_path root m) a /\
              read_folders root (project_after models zp) "view-paths" = Ok b /\ In (Files_Model.abs_path root v) b.
Proof.
  intros NM NE (a & b & RA & RB) W. destruct zp as [z|].
  - cbn [project_after]. destruct z as [|kv z]; [congruence|]. remember (kv :: z) as z0.
    assert (RF : forall k l, read_folders root (Some z0) k = Ok l -> exists l0, assoc k z0 = Some l0 /\ l = map (Files_Model.abs_path root) l0).
    { intros k l R. subst z0. unfold read_folders, Files_Model.get_folders in R. destruct (assoc k (kv :: z)) as [l0|]; [|discriminate].
      injection R as <-. now exists l0. }
    destruct (RF _ _ RA) as (la & A1 & ->), (RF _ _ RB) as (lb & B1 & ->).
    unfold write_folders, first_path in W. rewrite A1, B1 in W. destruct la as [|x la]; [discriminate|]. destruct lb as [|y lb]; [discriminate|].
    cbn [bind] in W. injection W as <- <-. do 2 eexists. repeat split; [exact RA| |exact RB|]; now left.
  - rewrite (NM eq_refl). cbn in W. injection W as <- <-. do 2 eexists. split; [reflexivity|]. split; [now left|]. split; [reflexivity|now left].
Qed.
Print Assumptions C83_read_back_partial.

(** Refuted: with an empty zenlytic_project.yml the views are written but no folder is read, and the file is not written again. *)
Theorem C83_empty_project_refuted root : write_folders [] = Ok ("models", "views") /\ project_after [] (Some []) = Some [] /\
  read_folders root (project_after [] (Some [])) "view-paths" = Ok [].
Proof. repeat split. Qed.
Print Assumptions C83_empty_project_refuted.

(** * Concrete cases *)

Definition shop : catalogue :=
  [("RAW", Col "PUBLIC" "ORDERS" "ID" "NUMBER" None); ("RAW", Col "PUBLIC" "ORDERS" "STATE" "TEXT" (Some "where it is"));
   ("RAW", Col "PUBLIC" "ITEMS" "ID" "NUMBER" None); ("RAW", Col "OTHER" "ORDERS" "ID" "NUMBER" None); ("DEV", Col "PUBLIC" "ORDERS" "ID" "NUMBER" None)].
Definition orders := Place (Some "RAW") (Some "PUBLIC") (Some "ORDERS").

Example C83_case : seen Postgres "DEV" shop orders =
  Ok (Some [Col "PUBLIC" "ORDERS" "ID" "NUMBER" None; Col "PUBLIC" "ORDERS" "STATE" "TEXT" (Some "where it is")]) /\
  seen Postgres "DEV" shop (Place (Some "RAW") (Some "public") (Some "ORDERS")) = Ok (Some []) /\
  seen Postgres "DEV" shop (Place (Some "RAW") None (Some "items")) = Ok (Some [Col "PUBLIC" "ITEMS" "ID" "NUMBER" None]) /\
  seen Trino "DEV" shop orders = Ok (Some [Col "PUBLIC" "ORDERS" "ID" "NUMBER" None]) /\
  seen BigQuery "DEV" shop (Place (Some "RAW") None None) = Err ValueError.
Proof. vm_compute. repeat split. Qed.
Example C83_spelled_case : source_of Postgres orders = Ok (OfDatabase "RAW") /\ spelled "RAW" orders shop /\ plain_opt (p_schema orders) = true.
Proof.
  repeat split; intros; unfold shop in *; cbn [In] in *;
  repeat match goal with H : _ \/ _ |- _ => destruct H as [H|H] | H : False |- _ => destruct H end; subst; cbn in *; try congruence; repeat match goal with H : asked _ _ _ = true |- _ => vm_compute in H; discriminate H end.
Qed.
Example C83_files_case : write_folders [("model-paths", ["m"]); ("view-paths", ["v"; "w"])] = Ok ("m", "v") /\
  get_model_name [("a", "x"); ("b", "y"); ("c", "y")] "y" = Ok "b" /\ get_model_name [("a", "x"); ("b", "y")] "z" = Err ValueError /\
  counted_column "Order_Cardinality_CARDINALITY" = "order_cardinality".
Proof. vm_compute. repeat split. Qed.
Example C83_counts_case : cardinalities_query Snowflake (Some "RAW") ["STATE"; "CITY"] "PUBLIC" "ORDERS" =
  ("SELECT APPROX_COUNT_DISTINCT( " ++ dq ++ "STATE" ++ dq ++ " ) as " ++ dq ++ "STATE_cardinality" ++ dq ++ ", APPROX_COUNT_DISTINCT( " ++ dq ++ "CITY" ++ dq ++
   " ) as " ++ dq ++ "CITY_cardinality" ++ dq ++ " FROM RAW.PUBLIC.ORDERS;")%string.
Proof. vm_compute. reflexivity. Qed.

(** the comments are asked for in the same database, without a condition: the later filter keeps the tables asked for *)
Theorem C83_tables_text d s t : d <> "" ->
  table_query Snowflake (Place (Some d) s t) =
    Ok ("SELECT table_catalog as table_database, table_schema as table_schema, table_name as table_name, table_owner as table_owner, table_type as table_type, bytes as table_size, created as table_created, last_altered as table_last_modified, row_count as table_row_count, comment as comment FROM " ++ d ++ ".INFORMATION_SCHEMA.TABLES;")%string /\
  table_query Databricks (Place (Some d) s t) =
    Ok ("SELECT table_catalog as table_database, table_schema as table_schema, table_name as table_name, table_type as table_type, comment as comment FROM " ++ d ++ ".INFORMATION_SCHEMA.TABLES;")%string /\
  table_query Databricks (Place None s t) =
    Ok "SELECT table_catalog as table_database, table_schema as table_schema, table_name as table_name, table_type as table_type, comment as comment FROM INFORMATION_SCHEMA.TABLES;".
Proof.
  intros D. unfold table_query; cbn [p_database]. rewrite (given_id d D). cbn [given ending no_semicolon append].
  repeat split; f_equal; repeat (progress (rewrite ?str_app, ?str_nil; cbn [append])); reflexivity.
Qed.
Print Assumptions C83_tables_text.

(** When the tables are not asked for: never where the columns are; the only difference is Databricks. *)
Theorem C83_tables_refused wh p e :
  table_query wh p = Err e <->
  e = ValueError /\ wh <> Databricks /\ ignores_database wh = false /\
  (given (p_database p) = None \/ wh = BigQuery /\ given (p_schema p) = None).
Proof.
  unfold table_query. destruct wh; cbn [ignores_database];
    destruct (given (p_database p)) as [d|]; destruct (given (p_schema p)) as [s|];
    (split; [intro H; try discriminate; injection H as <-; repeat split; (discriminate || tauto) |
             intros (-> & N & I & D); first [reflexivity | discriminate | congruence | destruct D as [D|[D1 D2]]; discriminate]]).
Qed.
Print Assumptions C83_tables_refused.

(** A project file that lists its models or views in no folder at all has no folder to write to. *)
Theorem C83_no_folder zp e : write_folders zp = Err e <->
  e = IndexError /\ (assoc "model-paths" zp = Some [] \/ assoc "view-paths" zp = Some []).
Proof.
  unfold write_folders, first_path.
  destruct (assoc "model-paths" zp) as [[|m ms]|]; destruct (assoc "view-paths" zp) as [[|v vs]|]; cbn [bind];
    (split; [intro H; try discriminate; injection H as <-; tauto |
             intros [-> [D|D]]; first [reflexivity | discriminate]]).
Qed.
Print Assumptions C83_no_folder.
