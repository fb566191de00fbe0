(** C84: a seeded field has the kind of its column, and what seeding writes passes the checks of the project. *)
From Coq Require Import List String Ascii ZArith Bool Lia Arith.
From Verif Require Import PyBase PyStr PyRefs Names_Model Connections_Model Seed_Model FieldCheck_Model SeedCheck_Model.
From Verif Require ViewCheck_Model ModelCheck_Model Subst_Props Seed_Props.
Import ListNotations.
Local Open Scope string_scope.
Local Open Scope list_scope.

(** * The kinds of columns *)

Inductive kind_of_value := KNumber | KYesNo | KText | KDay | KMoment | KTimeOfDay.
(** what the data types of warehouses hold, by their names in small letters *)
Definition holds_values : list (string * kind_of_value) :=
  [("date", KDay); ("datetime", KMoment); ("datetime2", KMoment); ("smalldatetime", KMoment); ("timestamp", KMoment); ("timestamp_tz", KMoment);
   ("timestamp_ntz", KMoment); ("timestamp_ltz", KMoment); ("timestamptz", KMoment); ("timestamp(p)", KMoment); ("timestamp with time zone", KMoment);
   ("timestamp(p) with time zone", KMoment); ("timestamp without time zone", KMoment); ("time", KTimeOfDay); ("timetz", KTimeOfDay);
   ("boolean", KYesNo); ("bool", KYesNo); ("bit", KYesNo);
   ("fixed", KNumber); ("float", KNumber); ("float64", KNumber); ("real", KNumber); ("number", KNumber); ("numeric", KNumber); ("decimal", KNumber);
   ("double", KNumber); ("double precision", KNumber); ("precision", KNumber); ("bigint", KNumber); ("int64", KNumber); ("long", KNumber); ("int", KNumber);
   ("integer", KNumber); ("smallint", KNumber); ("tinyint", KNumber); ("money", KNumber); ("smallmoney", KNumber);
   ("text", KText); ("varchar", KText); ("char", KText); ("character", KText); ("string", KText); ("binary", KText); ("varbinary", KText); ("json", KText)].
(** the field a kind of values calls for *)
Definition fits (k : kind_of_value) (f : field) : Prop :=
  match k with
  | KNumber => sf_kind f = Dim /\ sf_type f = "number"
  | KYesNo => sf_kind f = Dim /\ sf_type f = "yesno"
  | KText => sf_kind f = Dim /\ sf_type f = "string"
  | KDay => sf_kind f = Group /\ sf_type f = "time" /\ sf_datatype f = Some "date"
  | KMoment => sf_kind f = Group /\ sf_type f = "time" /\ In (sf_datatype f) [Some "timestamp"; Some "datetime"]
  | KTimeOfDay => sf_kind f = Dim
  end.

Definition fits_type (k : kind_of_value) (m : string) : bool :=
  match k with
  | KNumber => String.eqb m "number" | KYesNo => String.eqb m "yesno" | KText => String.eqb m "string"
  | KDay => String.eqb m "date" | KMoment => String.eqb m "timestamp" || String.eqb m "datetime" | KTimeOfDay => true
  end.
Definition all_wh := [Snowflake; Databricks; Redshift; Postgres; DuckDB; Trino; Druid; SQLServer; AzureSynapse; BigQuery].
Lemma all_wh_in wh : In wh all_wh.
Proof. destruct wh; cbn; tauto. Qed.
Lemma types_fit : forallb (fun wh => forallb (fun e => match assoc (lower (fst e)) holds_values with Some k => fits_type k (snd e) | None => false end) (types_of wh)) all_wh = true.
Proof. vm_compute. reflexivity. Qed.

(** Every data type the seeding of a warehouse knows is one whose values are known, and the field made from a column of it is of the
    kind its values call for; the time of day is set aside. *)
Theorem C84_types_partial wh c m : type_lookup wh (c_type c) = Some m ->
  exists k, assoc (lower (c_type c)) holds_values = Some k /\ (k <> KTimeOfDay -> fits k (make_field wh (type_lookup wh) c)).
Proof.
  intros H. assert (F := types_fit). rewrite forallb_forall in F. specialize (F wh (all_wh_in wh)). rewrite forallb_forall in F.
  assert (I : In (c_type c, m) (types_of wh)) by now apply assoc_In. specialize (F _ I). cbn [fst snd] in F.
  destruct (assoc (lower (c_type c)) holds_values) as [k|]; [|discriminate]. exists k. split; [reflexivity|]. intros N.
  unfold make_field. rewrite H. destruct k; cbn [fits_type] in F; try (apply String.eqb_eq in F; subst m; cbn; auto; fail); [|congruence].
  apply orb_prop in F as [F|F]; apply String.eqb_eq in F; subst m; cbn; auto.
Qed.
Print Assumptions C84_types_partial.

(** A data type that is not known makes a field of text. *)
Theorem C84_unknown wh c : type_lookup wh (c_type c) = None ->
  sf_kind (make_field wh (type_lookup wh) c) = Dim /\ sf_type (make_field wh (type_lookup wh) c) = "string" /\ sf_datatype (make_field wh (type_lookup wh) c) = None.
Proof. intros H. unfold make_field. rewrite H. cbn. auto. Qed.
Print Assumptions C84_unknown.

(** Refuted: the time of day is seeded as a moment on the calendar. *)
Theorem C84_time_of_day_refuted s t n c : forall wh ty, In (wh, ty) [(Redshift, "TIME"); (Redshift, "TIMETZ"); (Databricks, "TIME"); (SQLServer, "time"); (AzureSynapse, "time")] ->
  assoc (lower ty) holds_values = Some KTimeOfDay /\ sf_kind (make_field wh (type_lookup wh) (Col s t n ty c)) = Group.
Proof. intros wh ty I. cbn [In] in I. repeat (destruct I as [I|I]; [injection I as <- <-; split; reflexivity|]). destruct I. Qed.
Print Assumptions C84_time_of_day_refuted.

Definition capital (c : ascii) : bool := let n := nat_of_ascii c in (Nat.leb 65 n && Nat.leb n 90)%bool.
Definition small (c : ascii) : bool := let n := nat_of_ascii c in (Nat.leb 97 n && Nat.leb n 122)%bool.
Fixpoint any_char (p : ascii -> bool) (s : string) : bool := match s with EmptyString => false | String c r => p c || any_char p r end.
Definition in_small_letters (wh : cls) : bool := match wh with Postgres | DuckDB | SQLServer | AzureSynapse | Trino => true | _ => false end.
Lemma keys_case : forallb (fun wh => forallb (fun e => negb (any_char (if in_small_letters wh then capital else small) (fst e))) (types_of wh)) all_wh = true.
Proof. vm_compute. reflexivity. Qed.

(** Refuted: data types are known in one letter case only. DuckDB writes its types in capitals and is read with the small letters of
    Postgres; every such column is seeded as text. *)
Theorem C84_letter_case_refuted wh t : any_char (if in_small_letters wh then capital else small) t = true -> type_lookup wh t = None.
Proof.
  intros A. unfold type_lookup. destruct (assoc t (types_of wh)) as [m|] eqn:H; [exfalso|reflexivity].
  assert (F := keys_case). rewrite forallb_forall in F. specialize (F wh (all_wh_in wh)). rewrite forallb_forall in F.
  assert (I : In (t, m) (types_of wh)) by now apply assoc_In. specialize (F _ I). cbn [fst] in F. now rewrite A in F.
Qed.
Print Assumptions C84_letter_case_refuted.

Definition bracket (c : ascii) : bool := Ascii.eqb c "(".
Lemma keys_bracket : forallb (fun wh => forallb (fun e => negb (any_char bracket (fst e)) || (match wh with Trino => true | _ => false end && mem (fst e) ["timestamp(p)"; "timestamp(p) with time zone"])) (types_of wh)) all_wh = true.
Proof. vm_compute. reflexivity. Qed.

(** Refuted: a type with a length or a precision is not known, so decimal(10,2) and timestamp(3) are seeded as text. *)
Theorem C84_precision_refuted wh t : any_char bracket t = true -> t <> "timestamp(p)" -> t <> "timestamp(p) with time zone" -> type_lookup wh t = None.
Proof.
  intros A N1 N2. unfold type_lookup. destruct (assoc t (types_of wh)) as [m|] eqn:H; [exfalso|reflexivity].
  assert (F := keys_bracket). rewrite forallb_forall in F. specialize (F wh (all_wh_in wh)). rewrite forallb_forall in F.
  assert (I : In (t, m) (types_of wh)) by now apply assoc_In. specialize (F _ I). cbn [fst] in F. rewrite A in F. cbn [negb orb] in F.
  apply andb_prop in F as [_ F]. apply mem_In in F. cbn [In] in F. intuition congruence.
Qed.
Print Assumptions C84_precision_refuted.

(** Refuted: number types that are not known. *)
Theorem C84_missing_refuted : map (fun p => type_lookup (fst p) (snd p))
  [(Redshift, "INTEGER"); (Redshift, "SMALLINT"); (Redshift, "NUMERIC"); (BigQuery, "BIGNUMERIC"); (Postgres, "decimal"); (Druid, "INT"); (Snowflake, "INTEGER")] = repeat None 7.
Proof. vm_compute. reflexivity. Qed.
Print Assumptions C84_missing_refuted.

(** * The checks of a field *)

Section Field.
  Variable E : fenv.
  Variable fuel : nat.
  Hypothesis enough : fuel <> 0.
  (** str of a text is the text *)
  Hypothesis paren : forall s, e_paren E (YStr s) = s.

  Lemma has_app ch a b : has_char ch (a ++ b)%string = has_char ch a || has_char ch b.
  Proof. induction a as [|x a IH]; cbn [append has_char]; [reflexivity|]. rewrite IH. now rewrite orb_assoc. Qed.

  Definition paren_sql (b : bool) (s : string) : string := if b then ("(" ++ s ++ ")")%string else s.
  Lemma sql_refs wh c b : has_char "$" (c_name c) = false -> fields_to_replace (paren_sql b (column_sql wh c)) = ["TABLE"].
  Proof.
    intros D. set (x := if quotes wh then (dq ++ c_name c ++ dq)%string else c_name c).
    assert (P : has_char "$" x = false) by (unfold x; destruct (quotes wh); rewrite ?has_app, D; reflexivity).
    assert (R : forall y, has_char "$" y = false -> fields_to_replace ("${TABLE}" ++ y)%string = ["TABLE"]).
    { intros y Y. change ("${TABLE}" ++ y)%string with (("${" ++ "TABLE" ++ "}") ++ y)%string. rewrite Subst_Props.refs_ref by reflexivity. f_equal.
      rewrite <- (append_nil_r y). rewrite Subst_Props.refs_text; [reflexivity|]. unfold Subst_Props.plain. now rewrite Y. }
    unfold paren_sql, column_sql. fold x. destruct b.
    - rewrite Subst_Props.refs_text by reflexivity. change ("${TABLE}." ++ x)%string with ("${TABLE}" ++ ("." ++ x))%string. rewrite append_assoc.
      apply R. rewrite !has_app, P. reflexivity.
    - change ("${TABLE}." ++ x)%string with ("${TABLE}" ++ ("." ++ x))%string. apply R. rewrite has_app, P. reflexivity.
  Qed.

  Lemma no_clean ch s : is_word ch = false -> is_space ch = false -> ch <> "_"%char -> has_char ch (clean_name s) = false.
  Proof.
    intros W P U. destruct (has_char ch (clean_name s)) eqn:H; [exfalso|reflexivity]. unfold clean_name in H.
    apply Seed_Props.replace_chars in H as [->|[H _]]; [now apply U|]. apply Seed_Props.rstrip_chars, Seed_Props.lstrip_chars, Seed_Props.lower_chars in H.
    destruct H as [d [H ->]]. apply Seed_Props.keep_chars in H as [_ H].
    destruct d as [[] [] [] [] [] [] [] []]; cbn in *; discriminate.
  Qed.
  Lemma no_self wh c b : String.eqb (paren_sql b (column_sql wh c)) (placeholder (clean_name (c_name c))) = false.
  Proof.
    apply String.eqb_neq. intros Q. destruct b; [discriminate|]. unfold paren_sql, column_sql, placeholder in Q. set (x := if quotes wh then _ else _) in Q. clearbody x.
    set (n := clean_name (c_name c)) in Q. assert (B := no_clean "}" (c_name c) eq_refl eq_refl ltac:(discriminate)). fold n in B.
    clearbody n. cbn [append] in Q. injection Q as Q.
    do 5 (destruct n as [|? n]; cbn [append] in Q; [discriminate|injection Q as <- Q]).
    destruct n as [|a n]; cbn [append] in Q; [discriminate|injection Q as <- Q]. cbn [has_char] in B. discriminate.
  Qed.
  Lemma no_contains a p s : has_char a s = false -> contains (p ++ String a "") s = false.
  Proof.
    intros H. destruct (contains _ s) eqn:C; [exfalso|reflexivity]. apply contains_spec in C as [x [y ->]].
    rewrite !has_char_app in H. cbn [has_char] in H. rewrite Ascii.eqb_refl in H. cbn [orb] in H. rewrite orb_true_r in H. cbn [orb] in H. rewrite orb_true_r in H. discriminate.
  Qed.
  Lemma sql_looker wh c b : has_char "%" (c_name c) = false -> contains "{%" (paren_sql b (column_sql wh c)) = false.
  Proof.
    intros D. apply (no_contains "%" "{"). unfold paren_sql, column_sql. destruct b, (quotes wh); rewrite ?has_char_app, D; reflexivity.
  Qed.

  (** a field as seeding may make it of a column *)
  Definition with_tag (o : option bool) (f : field) : field :=
    Field (sf_name f) (sf_sql f) (sf_description f) (sf_kind f) (sf_type f) (sf_datatype f) o.
  Lemma with_tag_same f : with_tag (sf_searchable f) f = f.
  Proof. now destruct f. Qed.

  (** what the checks of a seeded field say: nothing but a cleaned name that is no name or is taken, a comment that is too long, and a text
      without a word about searching *)
  Definition said (o : option bool) (c : col) (f : field) : list rule :=
    (if valid_name (clean_name (c_name c))
     then match sf_kind f with Dim => if mem (clean_name (c_name c)) (e_reserved E) then [RReserved] else [] | Group => [] end
     else [RName])
    ++ match c_comment c with Some d => if Nat.ltb 512 (String.length d) then [RDescriptionLong] else [] | None => [] end
    ++ match o, sf_kind f with None, Dim => if String.eqb (sf_type f) "string" then [RSearchableMissing] else [] | _, _ => [] end.

  Lemma own_none name d t : sql E name d = Ok (Some (YStr t)) -> contains "{%" t = false -> fields_to_replace t = ["TABLE"] ->
    String.eqb t (placeholder name) = false -> eq_str (ytype d) "cumulative" = false -> eq_str (ytype d) "duration" = false -> own_sql_errors E fuel name d = Ok [].
  Proof.
    intros S1 L R N C D. unfold own_sql_errors. rewrite S1. cbn [bind]. unfold sql_errors, referenced. rewrite S1. cbn [bind]. rewrite L. cbn [bind]. rewrite C, D. cbn [andb].
    unfold refs_of. destruct fuel as [|n]; [congruence|]. cbn [refs]. rewrite R. cbn -[placeholder String.eqb]. rewrite N. reflexivity.
  Qed.
  Lemma case_none s : fields_to_replace s = ["TABLE"] -> clean_case s = s.
  Proof. intros H. unfold clean_case. rewrite H. reflexivity. Qed.

  Definition dim_types := ["string"; "number"; "yesno"].
  Lemma dim_kind : forallb (fun wh => forallb (fun e => mem (snd e) (["timestamp"; "date"; "datetime"] ++ dim_types)) (types_of wh)) all_wh = true.
  Proof. vm_compute. reflexivity. Qed.
  Lemma made wh c : (exists t, In t ["timestamp"; "date"; "datetime"] /\ make_field wh (type_lookup wh) c = Field (clean_name (c_name c)) (column_sql wh c) (c_comment c) Group "time" (Some t) None)
    \/ (exists t, In t dim_types /\ make_field wh (type_lookup wh) c = Field (clean_name (c_name c)) (column_sql wh c) (c_comment c) Dim t None None).
  Proof.
    unfold make_field. destruct (type_lookup wh (c_type c)) as [m|] eqn:H.
    - assert (F := dim_kind). rewrite forallb_forall in F. specialize (F wh (all_wh_in wh)). rewrite forallb_forall in F.
      unfold type_lookup in H. apply assoc_In in H. specialize (F _ H). cbn [snd] in F. apply mem_In in F. destruct (mem m ["timestamp"; "date"; "datetime"]) eqn:M.
      + left. exists m. split; [now apply mem_In|reflexivity].
      + right. exists m. split; [|reflexivity]. apply in_app_or in F as [F|F]; [|exact F]. apply mem_In in F. congruence.
    - right. exists "string". split; [now left|reflexivity].
  Qed.

  (** Of a seeded field the checks say exactly this, if the column's name has no dollar and no percent sign. *)
  Theorem C84_field wh c o : has_char "$" (c_name c) = false -> has_char "%" (c_name c) = false ->
    let f := with_tag o (make_field wh (type_lookup wh) c) in
    collect_errors E fuel (field_dict f) = Ok (map (pair 0) (said o c f), field_dict f).
  Proof.
    intros D P f. unfold f. clear f.
    assert (CE : forall d, get "canon_date" d = None -> canon_errors E d = Ok []).
    { intros d G. unfold canon_errors, canon_date. rewrite G. unfold view_default_date. destruct (e_default_date E) as [v|]; [|reflexivity]. cbn [option_map]. rewrite String.eqb_refl. reflexivity. }
    assert (SQ : forall d b, get "sql" d = Some (YStr (column_sql wh c)) -> eq_str (ytype d) "yesno" = b -> eq_str (ytype d) "tier" = false -> filters d = YList [] -> get "non_additive_dimension" d = None ->
              sql E (clean_name (c_name c)) d = Ok (Some (YStr (paren_sql b (column_sql wh c))))).
    { intros d b G Y T F N. unfold sql, sql_body. rewrite G. unfold sql_finish, nad. rewrite F, N. cbn [truthy bind nad_on orb]. rewrite T, Y. destruct b; cbn [bind].
      - rewrite paren. change ("(" ++ column_sql wh c ++ ")")%string with (paren_sql true (column_sql wh c)). rewrite case_none by now apply sql_refs. reflexivity.
      - change (column_sql wh c) with (paren_sql false (column_sql wh c)) at 1. rewrite case_none by now apply sql_refs. reflexivity. }
    assert (OW : forall d b, get "sql" d = Some (YStr (column_sql wh c)) -> eq_str (ytype d) "yesno" = b -> eq_str (ytype d) "tier" = false -> filters d = YList [] -> get "non_additive_dimension" d = None ->
              eq_str (ytype d) "cumulative" = false -> eq_str (ytype d) "duration" = false -> own_sql_errors E fuel (clean_name (c_name c)) d = Ok []).
    { intros d b G Y T F N C U. apply (own_none _ _ (paren_sql b (column_sql wh c))); auto; [now apply sql_looker|now apply sql_refs|apply no_self]. }
    assert (FE : forall d, get "filters" d = None -> filters_errors E (clean_name (c_name c)) d = Ok [] /\ qualify_filters E d = d).
    { intros d F. unfold filters_errors, qualify_filters, filters, has, on. rewrite F. auto. }
    destruct (made wh c) as [[t [I M]]|[t [I M]]]; rewrite M; unfold with_tag; cbn [sf_name sf_sql sf_description sf_kind sf_type sf_datatype sf_searchable];
      unfold said, collect_errors, errors; cbn [sf_kind sf_type].
    - set (d := field_dict _).
      assert (H1 : get "name" d = Some (YStr (clean_name (c_name c)))) by reflexivity. rewrite H1. cbv zeta.
      assert (G : group_errors E fuel (clean_name (c_name c)) d = Ok []).
      { unfold group_errors, time_sql_errors. rewrite (OW d false) by (unfold d; destruct (c_comment c), o; reflexivity).
        unfold d. cbn [In] in I. destruct I as [<-|[<-|[<-|[]]]]; destruct (c_comment c), o; reflexivity. }
      destruct (FE d) as [F1 F2]; [unfold d; destruct (c_comment c), o; reflexivity|]. rewrite F1. cbn [bind]. rewrite F2.
      rewrite CE by (unfold d; destruct (c_comment c), o; reflexivity). cbn [bind].
      assert (FT : ftype d = "dimension_group") by (unfold d; destruct (c_comment c), o; reflexivity). rewrite FT. cbn [String.eqb Ascii.eqb Bool.eqb]. rewrite G. cbn [bind].
      assert (P1 : on "is_personal_field" d = false) by (unfold d; destruct (c_comment c), o; reflexivity). rewrite P1.
      assert (PR : List.filter (fun k => negb (mem k (valid_properties "dimension_group"))) (map fst d) = []) by (unfold d; destruct (c_comment c), o; reflexivity). rewrite PR.
      rewrite andb_false_r. unfold too_long, d, field_dict. cbn [sf_name sf_sql sf_description sf_kind sf_type sf_datatype sf_searchable].
      destruct (c_comment c) as [x|], o, (valid_name (clean_name (c_name c))); cbn -[Nat.ltb String.length]; unfold description_max_chars; try destruct (Nat.ltb 512 (String.length x)); reflexivity.
    - set (d := field_dict _).
      assert (H1 : get "name" d = Some (YStr (clean_name (c_name c)))) by reflexivity. rewrite H1. cbv zeta.
      assert (G : dimension_errors E fuel (clean_name (c_name c)) d = Ok (match o with None => if String.eqb t "string" then [RSearchableMissing] else [] | Some _ => [] end)).
      { unfold dimension_errors. rewrite (OW d (String.eqb t "yesno")) by (unfold d; cbn [In dim_types] in I; destruct I as [<-|[<-|[<-|[]]]]; destruct (c_comment c), o; reflexivity).
        unfold d. cbn [In dim_types] in I. destruct I as [<-|[<-|[<-|[]]]]; destruct (c_comment c), o; reflexivity. }
      destruct (FE d) as [F1 F2]; [unfold d; destruct (c_comment c), o; reflexivity|]. rewrite F1. cbn [bind]. rewrite F2.
      rewrite CE by (unfold d; destruct (c_comment c), o; reflexivity). cbn [bind].
      assert (FT : ftype d = "dimension") by (unfold d; destruct (c_comment c), o; reflexivity). rewrite FT. cbn [String.eqb Ascii.eqb Bool.eqb]. rewrite G. cbn [bind].
      assert (P1 : on "is_personal_field" d = false) by (unfold d; destruct (c_comment c), o; reflexivity). rewrite P1.
      assert (PR : List.filter (fun k => negb (mem k (valid_properties "dimension"))) (map fst d) = []) by (unfold d; destruct (c_comment c), o; reflexivity). rewrite PR.
      rewrite andb_true_r. unfold too_long, d, field_dict. cbn [sf_name sf_sql sf_description sf_kind sf_type sf_datatype sf_searchable].
      set (r := mem _ (e_reserved E)). set (ms := if String.eqb t "string" then _ else _). 
      destruct (c_comment c) as [x|], o, (valid_name (clean_name (c_name c))), r; cbn -[Nat.ltb String.length ms]; unfold description_max_chars; try destruct (Nat.ltb 512 (String.length x)); cbn -[ms]; unfold ms; try destruct (String.eqb t "string"); reflexivity.
  Qed.
  (** ** All the fields of a view *)

  Lemma tagged names f : exists o, tag names f = with_tag o f /\ (sf_kind f = Dim -> sf_type f = "string" -> o <> None).
  Proof.
    unfold tag. eexists. split; [reflexivity|]. intros K T. rewrite K, T. destruct (mem _ names); discriminate.
  Qed.
  Lemma with_none wh lk c : with_tag None (make_field wh lk c) = make_field wh lk c.
  Proof. unfold make_field. destruct (mem _ _); reflexivity. Qed.

  (** one column, its field and its tag *)
  Definition of_column (wh : cls) (auto : bool) (c : col) (f : field) (o : option bool) : Prop :=
    f = with_tag o (make_field wh (type_lookup wh) c) /\ (auto = true -> sf_kind f = Dim -> sf_type f = "string" -> o <> None) /\ (auto = false -> o = None).
  Inductive columns (wh : cls) (auto : bool) : list col -> list field -> list (option bool) -> Prop :=
  | Cnil : columns wh auto [] [] []
  | Ccons c f o cs fs os : of_column wh auto c f o -> columns wh auto cs fs os -> columns wh auto (c :: cs) (f :: fs) (o :: os).

  Lemma fields_columns wh auto cards cs : exists os, columns wh auto cs (make_fields wh (type_lookup wh) auto cards cs) os.
  Proof.
    unfold make_fields. destruct (auto && _) eqn:A.
    - assert (AT : auto = true) by (now destruct auto). set (names := searchable_names _). clearbody names. clear A. subst auto. induction cs as [|c cs [os IH]]; [exists []; constructor|].
      destruct (tagged names (make_field wh (type_lookup wh) c)) as [o [T N]]. exists (o :: os). cbn [map]. constructor; [|exact IH].
      split; [exact T|]. split; [|discriminate]. intros _. rewrite T. cbn [with_tag sf_kind sf_type]. exact N.
    - assert (A' : auto = false \/ candidates (type_lookup wh) cs = []).
      { destruct auto; [right|now left]. cbn [andb] in A. apply negb_false_iff, Nat.eqb_eq in A. now destruct (candidates _ cs). }
      clear A. induction cs as [|c cs IH]; [exists []; constructor|].
      assert (A2 : auto = false \/ candidates (type_lookup wh) cs = []).
      { destruct A' as [A'|A']; [now left|right]. unfold candidates in *. cbn [List.filter] in A'. destruct (String.eqb _ _) in A'; [discriminate|exact A']. }
      destruct (IH A2) as [os Q]. exists (None :: os). cbn [map]. constructor; [|exact Q]. split; [now rewrite with_none|]. split; [|reflexivity].
      destruct A' as [->|A']; [discriminate|]. intros _ _ T. exfalso. unfold candidates in A'. cbn [List.filter] in A'.
      assert (V : (match type_lookup wh (c_type c) with Some t => t | None => "string" end) = "string").
      { revert T. unfold make_field. set (t := match type_lookup _ _ with Some _ => _ | None => _ end). destruct (mem t _); cbn [sf_type]; [discriminate|auto]. }
      rewrite V in A'. cbn in A'. discriminate.
  Qed.

  (** ** The checks of a view *)

  Variable VE : ViewCheck_Model.venv.
  Definition checked (f : field) : ViewCheck_Model.vfield :=
    ViewCheck_Model.VFld (sf_name f) false false (x <- collect_errors E fuel (field_dict f) ;; Ok (fst x)).
  Definition plain_column (c : col) : Prop := has_char "$" (c_name c) = false /\ has_char "%" (c_name c) = false.

  (** everything the checks of the fields say *)
  Fixpoint all_said (cs : list col) (fs : list field) (os : list (option bool)) : list ViewCheck_Model.vrule :=
    match cs, fs, os with
    | c :: cs, f :: fs, o :: os => map (ViewCheck_Model.VField (clean_name (c_name c))) (map (pair 0) (said o c f)) ++ all_said cs fs os
    | _, _, _ => []
    end.
  Definition twice (l : list string) : bool := negb (Nat.eqb (List.length l) (List.length (dedup l))).

  Lemma concat_said wh auto cs fs os : Forall plain_column cs -> columns wh auto cs fs os ->
    concatM (fun f => e <- ViewCheck_Model.vf_errors f ;; Ok (map (ViewCheck_Model.VField (ViewCheck_Model.vf_name f)) e)) (map checked fs) = Ok (all_said cs fs os).
  Proof.
    intros P C. revert P. induction C as [|c f o cs fs os [F [N N2]] C IH]; intros P; [reflexivity|]. apply Forall_cons_iff in P as [[P1 P2] P].
    cbn [map concatM checked ViewCheck_Model.vf_errors ViewCheck_Model.vf_name all_said]. specialize (IH P).
    rewrite F. rewrite (C84_field wh c o P1 P2). cbn [bind fst].
    assert (NM : sf_name (with_tag o (make_field wh (type_lookup wh) c)) = clean_name (c_name c)) by (cbn [with_tag sf_name]; unfold make_field; now destruct (mem _ _)).
    rewrite NM. rewrite <- F. rewrite IH. reflexivity.
  Qed.
  Lemma names_columns wh auto cs fs os : columns wh auto cs fs os -> map sf_name fs = map (fun c => clean_name (c_name c)) cs.
  Proof.
    induction 1 as [|c f o cs fs os [F [N N2]] C IH]; [reflexivity|]. cbn [map]. rewrite IH, F. f_equal. cbn [with_tag sf_name]. unfold make_field. now destruct (mem _ _).
  Qed.

  Lemma date_clean wh auto cards cs table schema od db d : sv_default_date (make_view wh (type_lookup wh) od db auto cards cs table schema) = Some d -> has_char "." d = false /\ d <> "" \/ d = "".
  Proof.
    cbn [make_view sv_default_date]. destruct (find _ _) as [f|] eqn:F; [|discriminate]. cbn [option_map]. intros H. injection H as <-.
    apply find_some in F as [I _]. destruct (fields_columns wh auto cards cs) as [os C]. assert (N := names_columns _ _ _ _ _ C).
    assert (I' := in_map sf_name _ _ I). rewrite N in I'. apply in_map_iff in I' as [c [<- _]].
    destruct (string_dec (clean_name (c_name c)) "") as [Z|Z]; [now right|]. left. split; [|exact Z]. apply no_clean; [reflexivity|reflexivity|discriminate].
  Qed.

  (** The checks of a seeded view say exactly this: its name is no name, its comment is too long, it has no primary key, what is said of
      its fields, and that two of them have one name. The model is known, and the default date is found where the view says. *)
  Theorem C84_view wh auto cards cs table schema od db model comment :
    let v := make_view wh (type_lookup wh) od db auto cards cs table schema in
    Forall plain_column cs ->
    ViewCheck_Model.ve_fields VE = Ok (map checked (sv_fields v)) -> In model (ViewCheck_Model.ve_models VE) ->
    (forall d, sv_default_date v = Some d -> d <> "" -> exists i, ViewCheck_Model.ve_by_name VE (sv_name v ++ "." ++ d)%string = Ok i /\
       fi_ftype i = "dimension_group" /\ fi_type i = "time" /\ fi_view i = sv_name v) ->
    is_ok (ViewCheck_Model.ve_joinable VE (sv_name v)) = true ->
    exists os, columns wh auto cs (sv_fields v) os /\
    ViewCheck_Model.collect_errors VE (view_dict v model comment) =
      Ok ((if valid_name (clean_name table) then [] else [ViewCheck_Model.VName])
          ++ match comment with Some x => if Nat.ltb 1024 (String.length x) then [ViewCheck_Model.VDescriptionLong] else [] | None => [] end
          ++ [ViewCheck_Model.VNoKey]
          ++ all_said cs (sv_fields v) os
          ++ (if twice (map (fun c => clean_name (c_name c)) cs) then [ViewCheck_Model.VTwice] else [])).
  Proof.
    intros v P VF VM DD JO. destruct (fields_columns wh auto cards cs) as [os C]. exists os. split; [exact C|].
    assert (DC := date_clean wh auto cards cs table schema od db). fold v in DC.
    assert (VN : sv_name v = clean_name table) by reflexivity.
    assert (FS : sv_fields v = make_fields wh (type_lookup wh) auto cards cs) by reflexivity.
    rewrite <- FS in C. clearbody v. destruct v as [vn vt vd vf]. cbn [sv_name sv_fields sv_default_date] in *. subst vn. clear FS.
    unfold ViewCheck_Model.collect_errors. rewrite VF. set (d := view_dict _ _ _).
    assert (HM : ViewCheck_Model.has_model VE d = true).
    { unfold ViewCheck_Model.has_model. replace (get "model_name" d) with (Some (YStr model)) by (unfold d, view_dict; cbn [sv_default_date]; destruct vd; reflexivity). now apply mem_In. }
    rewrite HM. cbn [negb].
    assert (ND : get "name" d = Some (YStr (clean_name table))) by reflexivity. rewrite ND.
    assert (GD : get "default_date" d = option_map YStr vd).
    { unfold d, view_dict. cbn [sv_name sv_table sv_default_date sv_fields]. destruct vd, comment as [x|]; try destruct (String.eqb x ""); reflexivity. }
    assert (DT : ViewCheck_Model.date_errors VE (clean_name table) d = Ok []).
    { unfold ViewCheck_Model.date_errors. rewrite GD. destruct vd as [t|]; [|reflexivity]. cbn [option_map]. destruct (String.eqb_spec t "") as [|NE]; [reflexivity|].
      destruct (DD t eq_refl NE) as [i [B [I1 [I2 I3]]]]. assert (DOT : ViewCheck_Model.dotted (clean_name table) t = (clean_name table ++ "." ++ t)%string).
      { unfold ViewCheck_Model.dotted. destruct (DC t eq_refl) as [[Z _]|Z]; [|congruence]. assert (K : contains "." t = false) by exact (no_contains "." "" t Z). now rewrite K. }
      rewrite DOT, B, I1, I2, I3. destruct (ViewCheck_Model.ve_joinable VE (clean_name table)) as [l|]; [|discriminate].
      assert (M : mem (clean_name table) (l ++ [clean_name table]) = true) by (apply mem_In, in_or_app; right; now left). rewrite M. reflexivity. }
    assert (GN : forall k, In k ["derived_table"; "label"; "hidden"; "row_label"; "extra"; "always_filter"; "access_filters"; "required_access_grants"; "event_dimension"; "event_name"; "fields_for_analysis"; "identifiers"] -> get k d = None).
    { intros k K. unfold d, view_dict. cbn [sv_name sv_table sv_default_date sv_fields]. cbn [In] in K.
      destruct vd, comment as [x|]; try destruct (String.eqb x ""); repeat (destruct K as [K|K]; [subst k; reflexivity|]); destruct K. }
    assert (GT : get "sql_table_name" d = Some (YStr vt)) by reflexivity.
    assert (GS : get "sets" d = Some (YList [])).
    { unfold d, view_dict. cbn [sv_name sv_table sv_default_date sv_fields]. destruct vd, comment as [x|]; try destruct (String.eqb x ""); reflexivity. }
    assert (TE : ViewCheck_Model.table_errors VE d = Ok []).
    { unfold ViewCheck_Model.table_errors, has, bad. rewrite GT, (GN "derived_table") by (cbn; tauto). reflexivity. }
    unfold ViewCheck_Model.sets_errors, ViewCheck_Model.always_errors, ViewCheck_Model.access_errors, ViewCheck_Model.event_errors, ViewCheck_Model.ids_errors, ViewCheck_Model.identifiers,
      ViewCheck_Model.derived_errors, ViewCheck_Model.view_grants_errors, bad.
    rewrite TE, DT, GS.
    rewrite ?(GN "derived_table") by (cbn; tauto). rewrite ?(GN "label") by (cbn; tauto). rewrite ?(GN "hidden") by (cbn; tauto). rewrite ?(GN "row_label") by (cbn; tauto). rewrite ?(GN "extra") by (cbn; tauto). rewrite ?(GN "always_filter") by (cbn; tauto). rewrite ?(GN "access_filters") by (cbn; tauto). rewrite ?(GN "required_access_grants") by (cbn; tauto). rewrite ?(GN "event_dimension") by (cbn; tauto). rewrite ?(GN "event_name") by (cbn; tauto). rewrite ?(GN "fields_for_analysis") by (cbn; tauto). rewrite ?(GN "identifiers") by (cbn; tauto). cbn [bind concatM].
    unfold ViewCheck_Model.fields_errors. rewrite (concat_said wh auto cs vf os P C). cbn [bind ViewCheck_Model.ids_loop].
    assert (NM : map ViewCheck_Model.vf_name (map checked vf) = map (fun c => clean_name (c_name c)) cs).
    { rewrite map_map. rewrite <- (names_columns _ _ _ _ _ C). apply map_ext. reflexivity. }
    assert (NK : ViewCheck_Model.keys_of (map checked vf) = []).
    { unfold ViewCheck_Model.keys_of. assert (Z : List.filter (fun f => ViewCheck_Model.vf_primary f && negb (ViewCheck_Model.vf_measure f)) (map checked vf) = []) by (clear; induction vf; [reflexivity|assumption]).
      rewrite Z. reflexivity. }
    assert (NP : existsb ViewCheck_Model.vf_primary (map checked vf) = false) by (clear; induction vf; [reflexivity|assumption]).
    rewrite NM, NK, NP. fold (twice (map (fun c => clean_name (c_name c)) cs)).
    assert (PR : List.filter (fun k => negb (mem k (ViewCheck_Model.view_internal ++ ViewCheck_Model.view_properties))) (map fst d) = []).
    { unfold d, view_dict. cbn [sv_name sv_table sv_default_date sv_fields]. destruct vd, comment as [x|]; try destruct (String.eqb x ""); reflexivity. }
    rewrite PR.
    assert (DE : get "description" d = match comment with Some x => if String.eqb x "" then None else Some (YStr x) | None => None end).
    { unfold d, view_dict. cbn [sv_name sv_table sv_default_date sv_fields]. destruct vd, comment as [x|]; try destruct (String.eqb x ""); reflexivity. }
    unfold ViewCheck_Model.view_long. rewrite DE. clear. set (n := clean_name table). set (a := all_said _ _ _). set (w := twice _).
    destruct (valid_name n), w; (destruct comment as [x|]; [destruct (String.eqb_spec x "") as [->|]; [|unfold ViewCheck_Model.view_description_max_chars; destruct (Nat.ltb 1024 (String.length x))]|]); cbn; rewrite ?app_nil_r; reflexivity.
  Qed.

  Lemma dedup_nodup l : NoDup l -> dedup l = l.
  Proof.
    unfold dedup, dedup_by. assert (G : forall seen, NoDup l -> (forall x, In x l -> ~ In x seen) -> dedup_by_aux (fun x => x) seen l = l); [|intros; apply G; auto].
    induction l as [|x l IH]; intros seen N D; [reflexivity|]. cbn [dedup_by_aux]. inversion N; subst.
    assert (M : mem x seen = false) by (apply mem_false, D; now left). rewrite M. f_equal. apply IH; [assumption|]. intros y Y [<-|Z]; [contradiction|]. apply (D y); [now right|exact Z].
  Qed.
  (** With the tags of searching, columns with names, comments that fit and no two of one name, what is written passes its checks, but for
      the warning that no primary key is named. *)
  Theorem C84_passes_partial wh cards cs table schema od db model comment :
    let v := make_view wh (type_lookup wh) od db true cards cs table schema in
    Forall plain_column cs ->
    ViewCheck_Model.ve_fields VE = Ok (map checked (sv_fields v)) -> In model (ViewCheck_Model.ve_models VE) ->
    (forall d, sv_default_date v = Some d -> d <> "" -> exists i, ViewCheck_Model.ve_by_name VE (sv_name v ++ "." ++ d)%string = Ok i /\
       fi_ftype i = "dimension_group" /\ fi_type i = "time" /\ fi_view i = sv_name v) ->
    is_ok (ViewCheck_Model.ve_joinable VE (sv_name v)) = true ->
    valid_name (clean_name table) = true -> (forall x, comment = Some x -> String.length x <= 1024) ->
    Forall (fun c => valid_name (clean_name (c_name c)) = true /\ ~ In (clean_name (c_name c)) (e_reserved E) /\ (forall x, c_comment c = Some x -> String.length x <= 512)) cs ->
    NoDup (map (fun c => clean_name (c_name c)) cs) ->
    ViewCheck_Model.collect_errors VE (view_dict v model comment) = Ok [ViewCheck_Model.VNoKey].
  Proof.
    intros v P VF VM DD JO NV CL G ND. destruct (C84_view wh true cards cs table schema od db model comment P VF VM DD JO) as [os [C X]]. fold v in X. rewrite X. clear X. fold v in C.
    rewrite NV. assert (T : twice (map (fun c => clean_name (c_name c)) cs) = false).
    { unfold twice. rewrite (dedup_nodup _ ND). now rewrite Nat.eqb_refl. }
    rewrite T. assert (A : all_said cs (sv_fields v) os = []).
    { clear -C G. remember (sv_fields v) as vf eqn:Q. clear Q v. remember true as auto eqn:Q in C. revert Q G. induction C as [|c f o cs fs os [F [N N2]] C IH]; intros Heqauto G; [reflexivity|]. apply Forall_cons_iff in G as [[G1 [G2 G3]] G].
      cbn [all_said]. rewrite (IH Heqauto G), app_nil_r. unfold said. rewrite G1.
      assert (R : mem (clean_name (c_name c)) (e_reserved E) = false) by now apply mem_false.
      rewrite R. assert (L : match c_comment c with Some d => if Nat.ltb 512 (String.length d) then [RDescriptionLong] else [] | None => [] end = []).
      { destruct (c_comment c) as [x|]; [|reflexivity]. specialize (G3 x eq_refl). destruct (Nat.ltb_spec 512 (String.length x)); [lia|reflexivity]. }
      rewrite L. specialize (N Heqauto). destruct (sf_kind f), o; try reflexivity. destruct (String.eqb_spec (sf_type f) "string") as [S1|]; [|reflexivity]. now destruct (N eq_refl S1). }
    fold v. rewrite A. destruct comment as [x|]; [|reflexivity]. specialize (CL x eq_refl). destruct (Nat.ltb_spec 1024 (String.length x)); [lia|reflexivity].
  Qed.

  (** what a check of a seeded view finds *)
  Definition finds (wh : cls) (auto : bool) (cs : list col) (e : ViewCheck_Model.vrule) : Prop :=
    forall cards table schema od db model comment,
    let v := make_view wh (type_lookup wh) od db auto cards cs table schema in
    ViewCheck_Model.ve_fields VE = Ok (map checked (sv_fields v)) -> In model (ViewCheck_Model.ve_models VE) ->
    (forall d, sv_default_date v = Some d -> d <> "" -> exists i, ViewCheck_Model.ve_by_name VE (sv_name v ++ "." ++ d)%string = Ok i /\
       fi_ftype i = "dimension_group" /\ fi_type i = "time" /\ fi_view i = sv_name v) ->
    is_ok (ViewCheck_Model.ve_joinable VE (sv_name v)) = true ->
    exists es, ViewCheck_Model.collect_errors VE (view_dict v model comment) = Ok es /\ In e es.
  Lemma said_in wh auto cs fs os c r : columns wh auto cs fs os -> In c cs -> (forall f o, of_column wh auto c f o -> In r (said o c f)) ->
    In (ViewCheck_Model.VField (clean_name (c_name c)) (0, r)) (all_said cs fs os).
  Proof.
    intros C. induction C as [|c' f o cs fs os F C IH]; intros I H; [destruct I|]. cbn [all_said]. apply in_or_app. destruct I as [->|I].
    - left. rewrite map_map. apply in_map_iff. exists r. split; [reflexivity|]. eapply H, F.
    - right. now apply IH.
  Qed.

  (** Refuted: no seeded view names a primary key; the checks of it say so, whatever the columns are. *)
  Theorem C84_key_refuted wh auto cs : Forall plain_column cs -> finds wh auto cs ViewCheck_Model.VNoKey.
  Proof.
    intros P cards table schema od db model comment v VF VM DD JO. destruct (C84_view wh auto cards cs table schema od db model comment P VF VM DD JO) as [os [C X]].
    eexists. split; [exact X|]. apply in_or_app. right. apply in_or_app. right. apply in_or_app. left. now left.
  Qed.
  (** Refuted: without the tags of searching every column of text is an error. *)
  Theorem C84_searchable_refuted wh cs c : Forall plain_column cs -> In c cs -> sf_type (make_field wh (type_lookup wh) c) = "string" ->
    finds wh false cs (ViewCheck_Model.VField (clean_name (c_name c)) (0, RSearchableMissing)).
  Proof.
    intros P I T cards table schema od db model comment v VF VM DD JO. destruct (C84_view wh false cards cs table schema od db model comment P VF VM DD JO) as [os [C X]].
    eexists. split; [exact X|]. apply in_or_app. right. apply in_or_app. right. apply in_or_app. right. apply in_or_app. left.
    apply said_in with (wh := wh) (auto := false); [exact C|exact I|]. intros f o [F [_ N]]. rewrite (N eq_refl) in *. subst f. unfold said. apply in_or_app. right. apply in_or_app. right.
    cbn [with_tag sf_kind sf_type]. rewrite T. revert T. unfold make_field. destruct (mem _ _); cbn [sf_type sf_kind]; [discriminate|]. intros _. now left.
  Qed.
  (** Refuted: a column whose cleaned name is no name, such as one of signs alone, is an error. *)
  Theorem C84_name_refuted wh auto cs c : Forall plain_column cs -> In c cs -> valid_name (clean_name (c_name c)) = false ->
    finds wh auto cs (ViewCheck_Model.VField (clean_name (c_name c)) (0, RName)).
  Proof.
    intros P I T cards table schema od db model comment v VF VM DD JO. destruct (C84_view wh auto cards cs table schema od db model comment P VF VM DD JO) as [os [C X]].
    eexists. split; [exact X|]. apply in_or_app. right. apply in_or_app. right. apply in_or_app. right. apply in_or_app. left.
    apply said_in with (wh := wh) (auto := auto); [exact C|exact I|]. intros f o _. unfold said. rewrite T. now left.
  Qed.
  (** Refuted: two columns whose cleaned names are one are an error. *)
  Theorem C84_clash_refuted wh auto a c b d e : Forall plain_column (a ++ c :: b ++ d :: e) -> clean_name (c_name c) = clean_name (c_name d) ->
    finds wh auto (a ++ c :: b ++ d :: e) ViewCheck_Model.VTwice.
  Proof.
    intros P Q cards table schema od db model comment v VF VM DD JO. destruct (C84_view wh auto cards _ table schema od db model comment P VF VM DD JO) as [os [C X]].
    eexists. split; [exact X|]. apply in_or_app. right. apply in_or_app. right. apply in_or_app. right. apply in_or_app. right.
    assert (T : twice (map (fun c => clean_name (c_name c)) (a ++ c :: b ++ d :: e)) = true); [|rewrite T; now left].
    unfold twice. apply negb_true_iff, Nat.eqb_neq. intros L.
    clear X C VF VM DD JO. set (l := map _ _) in L. assert (K : NoDup (dedup l)). { pose proof (dedup_by_aux_NoDup (fun x : string => x) [] l) as K. now rewrite map_id in K. }
    assert (IN : incl (dedup l) l). { intros x Y. apply dedup_by_aux_In in Y. tauto. }
    assert (ND : NoDup l). { apply (NoDup_incl_NoDup K); [lia|exact IN]. }
    unfold l in ND. rewrite map_app in ND. cbn [map] in ND. rewrite map_app in ND. cbn [map] in ND. apply NoDup_remove_2 in ND. apply ND. apply in_or_app. right. apply in_or_app. right. left. now symmetry.
  Qed.

End Field.
Print Assumptions C84_field.
Print Assumptions C84_view.
Print Assumptions C84_passes_partial.
Print Assumptions C84_key_refuted.
Print Assumptions C84_searchable_refuted.
Print Assumptions C84_name_refuted.
Print Assumptions C84_clash_refuted.

(** * The checks of a model *)

Lemma specials_done ME fs order m : (forall k, In k order -> ModelCheck_Model.me_special ME k = Ok (fs k)) -> NoDup order -> (forall k, In k order -> has k m = false) ->
  ModelCheck_Model.specials ME order m = ModelCheck_Model.MDone (m ++ map (fun k => (k, ModelCheck_Model.special_value k (fs k))) order).
Proof.
  revert m. induction order as [|k r IH]; intros m S1 N H; [now rewrite app_nil_r|]. cbn [ModelCheck_Model.specials map].
  rewrite (H k (or_introl eq_refl)), (S1 k (or_introl eq_refl)). inversion N; subst.
  rewrite IH; [now rewrite <- app_assoc|intros; apply S1; now right|assumption|].
  intros k' I. unfold has, get. assert (A : forall l, assoc k' (l ++ [(k, ModelCheck_Model.special_value k (fs k))]) = match assoc k' l with Some x => Some x | None => assoc k' [(k, ModelCheck_Model.special_value k (fs k))] end).
  { clear. induction l as [|[a b] l IHl]; [reflexivity|]. cbn [app assoc]. destruct (String.eqb k' a); [reflexivity|exact IHl]. }
  rewrite A. specialize (H k' (or_intror I)). unfold has, get in H. destruct (assoc k' m); [discriminate|]. cbn [assoc]. destruct (String.eqb_spec k' k) as [->|]; [contradiction|reflexivity].
Qed.

(** The model that is written passes its checks, whatever the connection is called, if the dates of the fields can be found. *)
Theorem C84_model ME fs connection :
  incl (ModelCheck_Model.me_order ME) ModelCheck_Model.special_names -> NoDup (ModelCheck_Model.me_order ME) ->
  (forall k, In k (ModelCheck_Model.me_order ME) -> ModelCheck_Model.me_special ME k = Ok (fs k)) ->
  (forall k f, In k (ModelCheck_Model.me_order ME) -> In f (fs k) -> ModelCheck_Model.me_get_field ME f = Ok tt) ->
  ModelCheck_Model.collect_errors ME (model_dict connection) = Ok [].
Proof.
  intros I N S1 G. unfold ModelCheck_Model.collect_errors, ModelCheck_Model.mapping_errors, ModelCheck_Model.mappings.
  change (get "name" (model_dict connection)) with (Some (YStr "base_model")). change (get "mappings" (model_dict connection)) with (@None yv).
  rewrite (specials_done ME fs _ [] S1 N) by reflexivity. cbn [app].
  assert (W : ModelCheck_Model.wall (ModelCheck_Model.map_errors ME) (map (fun k => (k, ModelCheck_Model.special_value k (fs k))) (ModelCheck_Model.me_order ME)) = ([], None)).
  { revert I G. generalize (ModelCheck_Model.me_order ME). clear. induction l as [|k l IH]; intros I G; [reflexivity|]. cbn [map ModelCheck_Model.wall].
    assert (M : ModelCheck_Model.map_errors ME (k, ModelCheck_Model.special_value k (fs k)) = ([], None)).
    { unfold ModelCheck_Model.map_errors, ModelCheck_Model.special_value. assert (V : valid_name k = true).
      { assert (J := I k (or_introl eq_refl)). cbn [In ModelCheck_Model.special_names] in J. repeat (destruct J as [<-|J]; [reflexivity|]). destruct J. }
      rewrite V. assert (Q : ModelCheck_Model.wall (ModelCheck_Model.field_error ME k) (map YStr (fs k)) = ([], None)).
      { assert (G' := fun f => G k f (or_introl eq_refl)). revert G'. generalize (fs k). clear. induction l as [|f l IH]; intros G; [reflexivity|]. cbn [map ModelCheck_Model.wall ModelCheck_Model.field_error].
        rewrite (G f (or_introl eq_refl)). rewrite IH; [reflexivity|]. intros; apply G; now right. }
      cbn [get assoc String.eqb Ascii.eqb Bool.eqb]. rewrite Q. reflexivity. }
    rewrite M, IH; [reflexivity| |]; [intros x X; apply I; now right|intros k' f K F; apply (G k' f); [now right|exact F]]. }
  rewrite W. reflexivity.
Qed.
Print Assumptions C84_model.

(** * Cases *)

Definition ex_env : fenv :=
  FEnv "orders" (Some "ordered_at") ["date"; "week"; "month"; "quarter"; "year"] [] (fun _ => Err AccessDenied) (fun _ => Err AccessDenied) (fun _ _ => Err AccessDenied) (fun _ => Ok [])
       (fun _ => true) (fun _ => Ok "") (Ok "*") (fun _ _ _ => Ok "") (fun _ _ => "") (fun v => match v with YStr s => s | _ => "" end).
Definition ex_cols : list col :=
  [Col "public" "Orders" "Order ID" "integer" None; Col "public" "Orders" "Ordered At" "timestamp without time zone" (Some "when it was placed");
   Col "public" "Orders" "STATE" "text" None; Col "public" "Orders" "paid" "boolean" None].
Definition ex_cards (l : list string) : list (string * Z) := map (fun x => (x, 12%Z)) l.
Definition ex_view (auto : bool) := make_view Postgres (type_lookup Postgres) false "db" auto ex_cards ex_cols "Orders" "public".
Definition ex_venv (auto : bool) : ViewCheck_Model.venv :=
  ViewCheck_Model.VEnv (Ok (map (checked ex_env 1) (sv_fields (ex_view auto)))) ["base_model"] (fun _ => Ok tt) (fun _ => Ok tt)
    (fun n => if String.eqb n "orders.ordered_at" then Ok (FInfo "orders" "dimension_group" "time" None (Ok None)) else Err AccessDenied) (fun _ => Ok []) [] (fun _ _ => Ok [])
    (fun _ => true) (fun _ => Ok tt) (fun _ => "").
(** With the tags one warning is left; without them the column of text is an error too. *)
Example C84_case :
  map (fun f => (sf_name f, sf_type f, sf_datatype f, sf_searchable f)) (sv_fields (ex_view true)) =
    [("order_id", "number", None, None); ("ordered_at", "time", Some "timestamp", None); ("state", "string", None, Some true); ("paid", "yesno", None, None)] /\
  ViewCheck_Model.collect_errors (ex_venv true) (view_dict (ex_view true) "base_model" (Some "All orders")) = Ok [ViewCheck_Model.VNoKey] /\
  ViewCheck_Model.collect_errors (ex_venv false) (view_dict (ex_view false) "base_model" None) =
    Ok [ViewCheck_Model.VNoKey; ViewCheck_Model.VField "state" (0, RSearchableMissing)].
Proof. repeat split; vm_compute; reflexivity. Qed.
(** The hypotheses of the theorem hold of this case. *)
Example C84_case_hypotheses :
  Forall plain_column ex_cols /\ ViewCheck_Model.ve_fields (ex_venv true) = Ok (map (checked ex_env 1) (sv_fields (ex_view true))) /\
  (forall d, sv_default_date (ex_view true) = Some d -> d <> "" -> exists i, ViewCheck_Model.ve_by_name (ex_venv true) (sv_name (ex_view true) ++ "." ++ d)%string = Ok i /\
       fi_ftype i = "dimension_group" /\ fi_type i = "time" /\ fi_view i = sv_name (ex_view true)) /\
  Forall (fun c => valid_name (clean_name (c_name c)) = true /\ ~ In (clean_name (c_name c)) (e_reserved ex_env) /\ (forall x, c_comment c = Some x -> String.length x <= 512)) ex_cols /\
  NoDup (map (fun c => clean_name (c_name c)) ex_cols).
Proof.
  repeat split.
  - repeat constructor.
  - intros d H _. vm_compute in H. injection H as <-. eexists. repeat split.
  - repeat (apply Forall_cons; [split; [reflexivity|]; split; [vm_compute; intuition discriminate|]; intros x X; cbn in X; try discriminate; injection X as <-; cbn; lia|]). apply Forall_nil.
  - vm_compute. repeat constructor; cbn; intuition discriminate.
Qed.
(** A type with a length, a type in capitals, and names that clash or are no names. *)
Example C84_cases :
  map (fun t => sf_type (make_field DuckDB (type_lookup DuckDB) (Col "main" "t" "x" t None))) ["integer"; "INTEGER"; "TIMESTAMP"; "numeric(10,2)"] = ["number"; "string"; "string"; "string"] /\
  clean_name "unit price" = clean_name "Unit_Price" /\ valid_name (clean_name "%?") = false /\ valid_name (clean_name "#") = false.
Proof. vm_compute. repeat split; reflexivity. Qed.
