(** C62: seeding writes one view per table with one field per column. *)
From Coq Require Import List String Ascii ZArith Bool Lia.
From Verif Require Import PyBase PyStr PyList Connections_Model Seed_Model.
Import ListNotations.
Open Scope string_scope.
Open Scope list_scope.

(** ** Specification *)

(** The columns of one table. *)
Definition of_table (s t : string) (rows : list col) : list col :=
  filter (fun c => String.eqb (c_schema c) s && String.eqb (c_table c) t) rows.

Definition date_types : list string := ["timestamp"; "date"; "datetime"].

Section Spec.
  Variable wh : cls.
  Variable lookup : string -> option string.
  Variable other_database : bool.
  Variable database : string.
  Notation seed_views := (seed_views wh lookup other_database database).

  (** A field that describes a column: it reads the column, is a time group exactly for dates and times,
      and has the type of the column otherwise. *)
  Definition describes (c : col) (f : field) : Prop :=
    sf_sql f = column_sql wh c /\ sf_name f = clean_name (c_name c) /\ sf_description f = c_comment c /\
    match lookup (c_type c) with
    | Some t => if mem t date_types then sf_kind f = Group /\ sf_type f = "time" /\ sf_datatype f = Some t
                else sf_kind f = Dim /\ sf_type f = t
    | None => sf_kind f = Dim /\ sf_type f = "string"
    end.

  Lemma make_field_describes c : describes c (make_field wh lookup c).
  Proof.
    unfold describes, make_field. destruct (lookup (c_type c)) as [t|].
    - change ["timestamp"; "date"; "datetime"] with date_types. destruct (mem t date_types); cbn; auto 10.
    - cbn. auto 10.
  Qed.

  Lemma tag_describes names c f : describes c f -> describes c (tag names f).
  Proof. unfold describes, tag. cbn. auto. Qed.

  Lemma map_describes (g : field -> field) cs : (forall c f, describes c f -> describes c (g f)) ->
    Forall2 describes cs (map g (map (make_field wh lookup) cs)).
  Proof. intros H. induction cs as [|c cs IH]; constructor; [apply H, make_field_describes | exact IH]. Qed.

  Lemma make_fields_describe auto cards cs : Forall2 describes cs (make_fields wh lookup auto cards cs).
  Proof.
    unfold make_fields. destruct (auto && _).
    - apply map_describes. intros c f. apply tag_describes.
    - rewrite <- (map_id (map _ cs)). apply map_describes. auto.
  Qed.

  Lemma unique_In seen l x : In x (unique seen l) <-> In x l /\ ~ In x seen.
  Proof.
    revert seen. induction l as [|y l IH]; intros seen; cbn; [tauto|]. destruct (mem y seen) eqn:M.
    - apply mem_In in M. rewrite IH. split; [tauto|]. intros [[->|H] N]; [contradiction | tauto].
    - apply mem_false in M. cbn. rewrite IH. split.
      + intros [->|[H N]]; [tauto|]. split; [tauto|]. intros C. apply N. right. exact C.
      + intros [[->|H] N]; [tauto|]. destruct (string_dec y x) as [->|NE]; [tauto|]. right. split; [exact H|]. intros [C|C]; tauto.
  Qed.
  Lemma unique_NoDup seen l : NoDup (unique seen l).
  Proof.
    revert seen. induction l as [|y l IH]; intros seen; cbn; [constructor|]. destruct (mem y seen); [apply IH|].
    constructor; [|apply IH]. rewrite unique_In. cbn. tauto.
  Qed.

  (** When no two tables have the same name in any letter case, seeding makes exactly one view per table:
      it reads that table and has one field per column, in order. *)
  Theorem C62_one_view_per_table_partial auto cards schema table rows :
    (forall c1 c2, In c1 (chosen schema table rows) -> In c2 (chosen schema table rows) ->
       lower (c_table c1) = lower (c_table c2) -> c_table c1 = c_table c2 /\ c_schema c1 = c_schema c2) ->
    exists ts, NoDup ts /\
      (forall s t, In (s, t) ts <-> exists c, In c (chosen schema table rows) /\ c_schema c = s /\ c_table c = t) /\
      Forall2 (fun st v => sv_table v = sql_table_name wh other_database database (fst st) (snd st) /\
                           sv_name v = clean_name (snd st) /\
                           Forall2 describes (of_table (fst st) (snd st) (chosen schema table rows)) (sv_fields v))
              ts (seed_views auto cards schema table rows).
  Proof.
    intros H. unfold Seed_Model.seed_views. set (data := chosen schema table rows) in *.
    pose (sch := fun t => match filter (fun c => String.eqb (lower (c_table c)) (lower t)) data with c :: _ => c_schema c | [] => "" end).
    assert (SC : forall c, In c data -> sch (c_table c) = c_schema c).
    { intros c I. unfold sch. destruct (filter _ data) as [|c' r] eqn:F.
      - exfalso. assert (In c []) as []. rewrite <- F. apply filter_In. rewrite String.eqb_refl. auto.
      - assert (J : In c' (filter (fun d => String.eqb (lower (c_table d)) (lower (c_table c))) data)) by (rewrite F; left; reflexivity).
        apply filter_In in J. destruct J as [J E]. apply String.eqb_eq in E. apply H; assumption. }
    exists (map (fun t => (sch t, t)) (unique [] (map c_table data))). split; [|split].
    - apply FinFun.Injective_map_NoDup; [intros a b [= _ E]; exact E | apply unique_NoDup].
    - intros s t. rewrite in_map_iff. split.
      + intros [u [[= <- <-] I]]. apply unique_In in I. destruct I as [I _]. apply in_map_iff in I. destruct I as [c [<- I]].
        exists c. rewrite (SC c I). auto.
      + intros [c [I [<- <-]]]. exists (c_table c). rewrite (SC c I). split; [reflexivity|]. apply unique_In. split; [|intros []].
        apply in_map. exact I.
    - assert (U : forall t, In t (unique [] (map c_table data)) -> exists c, In c data /\ c_table c = t).
      { intros t I. apply unique_In in I. destruct I as [I _]. apply in_map_iff in I. destruct I as [c [E I]]. exists c. auto. }
      revert U. generalize (unique [] (map c_table data)) as ts. intros ts U. induction ts as [|t ts IH]; [constructor|].
      cbn [map]. constructor; [|apply IH; intros u I; apply U; right; exact I].
      cbn [fst snd make_view sv_table sv_name sv_fields]. destruct (U t (or_introl eq_refl)) as [c [I <-]].
      split; [reflexivity|]. split; [reflexivity|].
      replace (of_table (sch (c_table c)) (c_table c) data) with (filter (fun d => String.eqb (lower (c_table d)) (lower (c_table c))) data).
      + apply make_fields_describe.
      + unfold of_table. rewrite (SC c I). apply filter_ext_in. intros d J.
        destruct (String.eqb_spec (lower (c_table d)) (lower (c_table c))) as [E|E].
        * destruct (H d c J I E) as [-> ->]. rewrite !String.eqb_refl. reflexivity.
        * symmetry. apply andb_false_iff. right. apply String.eqb_neq. intros C. apply E. rewrite C. reflexivity.
  Qed.

  (** *** Searchable tags *)
  Lemma keep_all p s : (forall c, has_char c s = true -> p c = true) -> keep p s = s.
  Proof.
    induction s as [|c s IH]; [reflexivity|]. intros H. cbn. rewrite (H c); [|cbn; rewrite Ascii.eqb_refl; reflexivity].
    rewrite IH; [reflexivity|]. intros d D. apply H. cbn. rewrite D. apply orb_true_r.
  Qed.
  Lemma keep_app p a b : keep p (a ++ b) = (keep p a ++ keep p b)%string.
  Proof. induction a as [|c a IH]; [reflexivity|]. cbn. destruct (p c); cbn; rewrite IH; reflexivity. Qed.

  Lemma lower_dq_char c : Ascii.eqb (lower_ascii c) (ascii_of_nat 34) = Ascii.eqb c (ascii_of_nat 34).
  Proof. destruct c as [[] [] [] [] [] [] [] []]; reflexivity. Qed.
  Lemma lower_no_dq s : has_char (ascii_of_nat 34) s = false -> has_char (ascii_of_nat 34) (lower s) = false.
  Proof.
    induction s as [|c s IH]; [reflexivity|]. cbn [has_char lower]. intros H. apply orb_false_iff in H. destruct H as [A B].
    rewrite (IH B), orb_false_r. revert A. clear. destruct c as [[] [] [] [] [] [] [] []]; cbn; auto.
  Qed.

  Lemma sql_column_of c : has_char (ascii_of_nat 34) (c_name c) = false ->
    sql_column (make_field wh lookup c) = lower (c_name c).
  Proof.
    intros H. assert (S : sf_sql (make_field wh lookup c) = column_sql wh c) by apply make_field_describes.
    unfold sql_column. rewrite S. unfold column_sql. cbn -[keep lower]. apply lower_no_dq in H.
    assert (K : keep (fun d => negb (Ascii.eqb d (ascii_of_nat 34))) (lower (c_name c)) = lower (c_name c)).
    { apply keep_all. intros d D. destruct (Ascii.eqb_spec d (ascii_of_nat 34)) as [->|]; [congruence|reflexivity]. }
    destruct (quotes wh); [|exact K].
    change (keep (fun d => negb (Ascii.eqb d (ascii_of_nat 34))) (lower (dq ++ (c_name c ++ dq))) = lower (c_name c)).
    rewrite !lower_app, !keep_app, K. change (keep (fun d => negb (Ascii.eqb d (ascii_of_nat 34))) (lower dq)) with "".
    cbn [append]. apply append_nil_r.
  Qed.

  (** With automatic tags each text column is searchable iff it has fewer than 100 distinct values: when the
      names have no double quotes and the warehouse answers one number per column asked, the same for
      columns equal in any letter case. *)
  Theorem C62_searchable cards cs c n :
    In c cs -> lookup (c_type c) = Some "string" \/ lookup (c_type c) = None ->
    Forall (fun d => has_char (ascii_of_nat 34) (c_name d) = false) cs ->
    Forall2 (fun name r => lower (fst r) = lower name) (candidates lookup cs) (cards (candidates lookup cs)) ->
    (forall r, In r (cards (candidates lookup cs)) -> lower (fst r) = lower (c_name c) -> snd r = n) ->
    exists f, In f (make_fields wh lookup true cards cs) /\ describes c f /\ sf_searchable f = Some (Z.ltb n 100).
  Proof.
    intros I T Q CA N. rewrite Forall_forall in Q.
    assert (TY : String.eqb (match lookup (c_type c) with Some t => t | None => "string" end) "string" = true) by (destruct T as [-> | ->]; reflexivity).
    assert (C : In (c_name c) (candidates lookup cs)).
    { unfold candidates. apply in_map. apply filter_In. split; [exact I | exact TY]. }
    unfold make_fields. replace (Nat.eqb (List.length (candidates lookup cs)) 0) with false.
    2:{ symmetry. apply Nat.eqb_neq. intros E. destruct (candidates lookup cs); [destruct C | discriminate]. }
    cbn [andb negb]. exists (tag (searchable_names (cards (candidates lookup cs))) (make_field wh lookup c)).
    split; [apply in_map, in_map; exact I|]. split; [apply tag_describes, make_field_describes|].
    unfold tag. cbn [sf_searchable]. rewrite (sql_column_of c (Q c I)).
    destruct (Forall2_In_l _ _ _ CA _ C) as [r [R E]]. specialize (N r R E) as NR.
    assert (M : mem (lower (c_name c)) (searchable_names (cards (candidates lookup cs))) = Z.ltb n 100).
    { destruct (Z.ltb n 100) eqn:L.
      - apply mem_In. unfold searchable_names. apply in_map_iff. exists r. split; [exact E|]. apply filter_In. rewrite NR. auto.
      - apply mem_false. intros X. unfold searchable_names in X. apply in_map_iff in X. destruct X as [r' [E' X]].
        apply filter_In in X. destruct X as [X1 X2]. rewrite (N r' X1 E') in X2. congruence. }
    rewrite M. destruct (Z.ltb n 100); [reflexivity|].
    unfold make_field. assert ((match lookup (c_type c) with Some t => t | None => "string" end) = "string") as -> by (apply String.eqb_eq; exact TY).
    reflexivity.
  Qed.
End Spec.
Print Assumptions C62_one_view_per_table_partial.
Print Assumptions C62_searchable.

(** *** Names *)
Lemma keep_chars p s c : has_char c (keep p s) = true -> has_char c s = true /\ p c = true.
Proof.
  induction s as [|d s IH]; [discriminate|]. cbn. destruct (p d) eqn:P; cbn.
  - destruct (Ascii.eqb_spec d c) as [->|]; cbn; [auto|]. exact IH.
  - intros H. destruct (IH H) as [A B]. rewrite A, orb_true_r. auto.
Qed.
Lemma lstrip_chars s c : has_char c (lstrip s) = true -> has_char c s = true.
Proof. induction s as [|d s IH]; [discriminate|]. cbn [lstrip]. destruct (is_space d); [|auto]. intros H. cbn. rewrite (IH H). apply orb_true_r. Qed.
Lemma rstrip_chars s c : has_char c (rstrip s) = true -> has_char c s = true.
Proof.
  induction s as [|d s IH]; [discriminate|]. cbn [rstrip]. destruct (rstrip s) as [|x r] eqn:E.
  - destruct (is_space d); [discriminate|]. cbn. rewrite orb_false_r. intros ->. reflexivity.
  - cbn [has_char]. intros H. apply orb_true_iff in H. apply orb_true_iff. destruct H as [H|H]; [left; exact H | right; apply IH; exact H].
Qed.
Lemma lower_chars s c : has_char c (lower s) = true -> exists d, has_char d s = true /\ c = lower_ascii d.
Proof.
  induction s as [|d s IH]; [discriminate|]. cbn [lower has_char]. intros H. apply orb_true_iff in H. destruct H as [H|H].
  - apply Ascii.eqb_eq in H. exists d. rewrite Ascii.eqb_refl. split; [reflexivity|]. congruence.
  - destruct (IH H) as [e [A B]]. exists e. rewrite A, orb_true_r. auto.
Qed.
Lemma replace_chars a b s c : has_char c (replace_char a b s) = true -> c = b \/ (has_char c s = true /\ c <> a).
Proof.
  induction s as [|d s IH]; [discriminate|]. cbn [replace_char has_char]. intros H. apply orb_true_iff in H. destruct H as [H|H].
  - apply Ascii.eqb_eq in H. destruct (Ascii.eqb_spec d a) as [->|N]; [left; congruence|]. right. subst c. rewrite Ascii.eqb_refl. auto.
  - destruct (IH H) as [E|[E F]]; [left; exact E | right]. rewrite E, orb_true_r. auto.
Qed.

(** White space of ASCII: tab, line feed, vertical tab, form feed, carriage return, the four separators and the blank *)
Definition white (c : ascii) : Prop := In (nat_of_ascii c) [9; 10; 11; 12; 13; 28; 29; 30; 31; 32].
Definition plain : string := "abcdefghijklmnopqrstuvwxyz0123456789_".
Lemma is_space_white c : is_space c = true <-> white c.
Proof.
  unfold is_space, white. cbn [In]. rewrite !orb_true_iff, !andb_true_iff, Nat.eqb_eq, !Nat.leb_le. lia.
Qed.
(** The names of seeded views and fields have only lower case letters, digits and underscores, if the
    only white space in the names of the warehouse is blanks. *)
Theorem C62_names txt c :
  (forall d, has_char d txt = true -> white d -> d = " "%char) ->
  has_char c (clean_name txt) = true -> has_char c plain = true.
Proof.
  intros W H. unfold clean_name in H. apply replace_chars in H. destruct H as [->|[H NB]]; [reflexivity|].
  apply rstrip_chars, lstrip_chars, lower_chars in H. destruct H as [d [H ->]]. apply keep_chars in H. destruct H as [H P].
  destruct (is_word d) eqn:WD.
  - clear -WD. destruct d as [[] [] [] [] [] [] [] []]; cbn in *; try discriminate; reflexivity.
  - cbn in P. apply is_space_white in P. rewrite (W d H P) in NB. exfalso. apply NB. reflexivity.
Qed.
(** Other white space inside a name stays in it. *)
Theorem C62_white_space_refuted : forall d, white d -> d <> " "%char -> clean_name ("a" ++ String d "b") = ("a" ++ String d "b")%string.
Proof.
  intros d W N. unfold white in W. pose proof (ascii_nat_embedding d) as E. cbn [In] in W.
  repeat (destruct W as [W|W]; [rewrite <- W in E; rewrite <- E in N |- *; first [reflexivity|exfalso; apply N; reflexivity]|]). destruct W.
Qed.
Print Assumptions C62_white_space_refuted.
Print Assumptions C62_names.

(** ** Cases and refutations *)
Definition ex_rows : list col :=
  [Col "PUBLIC" "Orders" "ORDER ID" "FIXED" None; Col "PUBLIC" "Orders" "STATE" "TEXT" (Some "where"); Col "PUBLIC" "Customers" "JOINED" "DATE" None].
Definition ex_lookup (t : string) : option string := assoc t [("FIXED", "number"); ("DATE", "date"); ("TEXT", "string")].
Definition ex_cards (t : string) (l : list string) : list (string * Z) := map (fun x => (x, 12%Z)) l.

Example C62_case :
  map (fun v => (sv_name v, sv_table v, map sf_name (sv_fields v), map sf_searchable (sv_fields v), sv_default_date v))
      (seed_views Snowflake ex_lookup false "DB" true ex_cards None None ex_rows)
  = [("orders", "PUBLIC.Orders", ["order_id"; "state"], [None; Some true], None);
     ("customers", "PUBLIC.Customers", ["joined"], [None], Some "joined")].
Proof. vm_compute. reflexivity. Qed.

(** Two tables of one name in two schemas become one view that reads the first and has the columns of
    both. *)
Theorem C62_two_schemas_refuted :
  exists rows v, seed_views Snowflake ex_lookup false "DB" false ex_cards None None rows = [v] /\
    sv_table v = "SALES.orders" /\ map sf_name (sv_fields v) = ["id"; "secret"] /\
    rows = [Col "SALES" "orders" "ID" "FIXED" None; Col "HR" "orders" "SECRET" "TEXT" None].
Proof. do 2 eexists. split; [|split; [|split; [|reflexivity]]]; vm_compute; reflexivity. Qed.
Print Assumptions C62_two_schemas_refuted.

(** Two tables whose names differ in letter case become two views of one name (so one file), each with the
    columns of both. *)
Theorem C62_letter_case_refuted :
  exists rows, map (fun v => (sv_name v, sv_table v, map sf_name (sv_fields v)))
      (seed_views Snowflake ex_lookup false "DB" false ex_cards None None rows)
    = [("orders", "P.Orders", ["a"; "b"]); ("orders", "P.ORDERS", ["a"; "b"])] /\
    rows = [Col "P" "Orders" "A" "FIXED" None; Col "P" "ORDERS" "B" "FIXED" None].
Proof. eexists. split; [|reflexivity]. vm_compute. reflexivity. Qed.
Print Assumptions C62_letter_case_refuted.

(** Distinct columns can get one name, or an empty one. *)
Theorem C62_name_clash_refuted : clean_name "a b" = clean_name "A_B" /\ clean_name "$ $" = "".
Proof. split; vm_compute; reflexivity. Qed.
Print Assumptions C62_name_clash_refuted.

(** The cardinalities of a Druid table (whose database is None) are read from a database called None. *)
Theorem C62_druid_cardinality_refuted schema table :
  cardinality_from Druid None schema table = (" FROM None." ++ schema ++ "." ++ table)%string.
Proof. reflexivity. Qed.
Print Assumptions C62_druid_cardinality_refuted.

(** The project file written inside a dbt project has a mode that the loader refuses. *)
Theorem C62_dbt_mode_refuted : init_mode true = Some "dbt" /\ accepted_mode (init_mode true) = Err TypeError /\ accepted_mode (init_mode false) = Ok tt.
Proof. repeat split; reflexivity. Qed.
Print Assumptions C62_dbt_mode_refuted.

(** *** The table a view reads *)
(** How a warehouse reads a table name: two parts are in the database of the connection.  BigQuery's names stand
    in backquotes. *)
Definition resolve (default : string) (name : string) : option (string * string * string) :=
  match split_char "." name with
  | [s; t] => Some (default, s, t)
  | [d; s; t] => Some (d, s, t)
  | _ => None
  end.
Definition bare (s : string) : Prop := has_char "." s = false.
(** seeding.py:35-36: the database given, or that of the connection *)
Definition chosen_database (default given : string) : string := if String.eqb given "" then default else given.
Definition other (default given : string) : bool := negb (String.eqb given "") && negb (String.eqb given default).

Lemma resolve_two d s t : bare s -> bare t -> resolve d (s ++ "." ++ t)%string = Some (d, s, t).
Proof. intros S T. unfold resolve. cbn [append]. rewrite split_char_app by exact S. rewrite (split_char_nochar "." t T). reflexivity. Qed.
Lemma resolve_three e d s t : bare d -> bare s -> bare t -> resolve e (d ++ "." ++ s ++ "." ++ t)%string = Some (d, s, t).
Proof. intros D S T. unfold resolve. cbn [append]. rewrite split_char_app by exact D. rewrite split_char_app by exact S. rewrite (split_char_nochar "." t T). reflexivity. Qed.
(** The name written in a view is that of the table, in the database the user chose *)
Theorem C62_reads_the_table_partial wh default given s t : bare default -> bare given -> bare s -> bare t -> ~ In wh [Druid; Trino] ->
  let name := sql_table_name wh (other default given) (chosen_database default given) s t in
  exists inner, (if match wh with BigQuery => true | _ => false end then name = ("`" ++ inner ++ "`")%string else name = inner) /\ resolve default inner = Some (chosen_database default given, s, t).
Proof.
  intros D G S T N. cbv zeta. unfold chosen_database, other.
  assert (C : bare (if String.eqb given "" then default else given)) by (destruct (String.eqb given ""); assumption).
  destruct wh; cbn [sql_table_name]; try (exfalso; apply N; cbn; tauto).
  8:{ exists ((if String.eqb given "" then default else given) ++ "." ++ s ++ "." ++ t)%string. split; [cbn [append]; rewrite append_assoc; cbn [append]; rewrite append_assoc; reflexivity|]. apply resolve_three; assumption. }
  all: eexists; (split; [reflexivity|]); destruct (String.eqb given "") eqn:EG; cbn [negb andb]; [apply resolve_two; assumption|].
  all: destruct (String.eqb_spec given default) as [->|NE]; cbn [negb]; [apply resolve_two|apply resolve_three]; assumption.
Qed.
Print Assumptions C62_reads_the_table_partial.
(** With Druid and Trino another database is forgotten *)
Theorem C62_other_database_refuted wh default given s t : In wh [Druid; Trino] -> bare s -> bare t -> given <> "" -> given <> default ->
  resolve default (sql_table_name wh (other default given) (chosen_database default given) s t) = Some (default, s, t) /\ chosen_database default given <> default.
Proof.
  intros W S T N1 N2. split.
  - destruct W as [<-|[<-|[]]]; cbn [sql_table_name]; apply resolve_two; assumption.
  - unfold chosen_database. destruct (String.eqb_spec given ""); congruence.
Qed.
Print Assumptions C62_other_database_refuted.
Example C62_reads_case : resolve "ANALYTICS" (sql_table_name Snowflake (other "ANALYTICS" "RAW") (chosen_database "ANALYTICS" "RAW") "PUBLIC" "ORDERS") = Some ("RAW", "PUBLIC", "ORDERS").
Proof. reflexivity. Qed.

(** *** The rows kept, the SQL of a column, the modes *)
(** C62: with a schema or a table given, in any letter case, exactly the rows of it are seeded; without one, all. *)
Theorem C62_chosen : forall schema table rows c, In c (chosen schema table rows) <->
  In c rows /\ (forall s, schema = Some s -> lower (c_schema c) = lower s) /\ (forall t, table = Some t -> lower (c_table c) = lower t).
Proof.
  intros schema table rows c. unfold chosen. rewrite filter_In, andb_true_iff.
  assert (K : forall (o : option string) x, match o with Some s => String.eqb x (lower s) | None => true end = true <-> (forall s, o = Some s -> x = lower s)).
  { intros [s|] x; [|split; [discriminate|reflexivity]]. rewrite String.eqb_eq. split; [intros E s' H; injection H as <-; exact E|intros H; exact (H s eq_refl)]. }
  rewrite (K schema), (K table). tauto.
Qed.
(** C62: the SQL of a field is the column of the view's table, in double quotes except in BigQuery and Databricks. *)
Theorem C62_column_sql : forall wh lookup c,
  sf_sql (make_field wh lookup c) = if match wh with BigQuery | Databricks => true | _ => false end
    then ("${TABLE}." ++ c_name c)%string
    else ("${TABLE}." ++ String (ascii_of_nat 34) (c_name c ++ String (ascii_of_nat 34) ""))%string.
Proof. intros wh lookup c. unfold make_field. destruct (mem _ _); cbn [sf_sql]; unfold column_sql; destruct wh; reflexivity. Qed.
(** C62: the loader takes the two modes it knows, and a project file without a mode; it refuses all others. *)
Theorem C62_modes : forall m, (m = None \/ m = Some "metricflow" \/ m = Some "metrics_layer" -> accepted_mode m = Ok tt)
  /\ (~ (m = None \/ m = Some "metricflow" \/ m = Some "metrics_layer") -> accepted_mode m = Err TypeError).
Proof.
  intros m. split.
  - intros [->|[->| ->]]; reflexivity.
  - intros N. destruct m as [m|]; [|tauto]. cbn [accepted_mode]. assert (mem m ["metricflow"; "metrics_layer"] = false) as ->; [|reflexivity].
    apply mem_false. cbn [In]. intros [<-|[<-|[]]]; tauto.
Qed.
Print Assumptions C62_chosen.
Print Assumptions C62_column_sql.
Print Assumptions C62_modes.
Example C62_chosen_case : chosen (Some "public") None ex_rows = ex_rows /\ chosen (Some "PUBLIC") (Some "ORDERS") ex_rows = firstn 2 ex_rows.
Proof. split; reflexivity. Qed.
