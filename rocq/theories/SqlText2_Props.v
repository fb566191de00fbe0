(** C76, second part: the texts of the filters of a measure and of the labels of a case, and the texts that escape. *)
From Coq Require Import List String Ascii ZArith QArith Bool Lia.
From Verif Require Import PyBase PyStr PyReplace PyRefs Subst_Model Subst_Props Core_Model Clause_Model Clause_Spec Clause_Proofs Filter_Model Cond_Model SqlText_Model SqlText_Props.
Import ListNotations.
Local Open Scope string_scope.
Local Open Scope list_scope.

(** ** Texts that escape *)
(** Where a backslash escapes (Snowflake, Redshift, BigQuery, Databricks), a text of backslash, quote and anything is
    read as the literal of one quote followed by SQL of the user's choice; a comment hides the closing quote.  [p] is
    any text without quotes and backslashes. *)
Definition escape (p : string) : string := ("\'" ++ p ++ " --")%string.
Lemma doubled_plain p : has_char "'" p = false -> doubled p = p.
Proof.
  induction p as [|c p IH]; [reflexivity|]. cbn [has_char doubled]. unfold quote. intros H. apply orb_false_iff in H. destruct H as [H1 H2].
  rewrite H1. rewrite IH by exact H2. reflexivity.
Qed.
Lemma doubled_app a b : doubled (a ++ b) = (doubled a ++ doubled b)%string.
Proof. induction a as [|c a IH]; [reflexivity|]. cbn [append doubled]. destruct (Ascii.eqb c quote); cbn [append]; rewrite IH; reflexivity. Qed.
Lemma stands_run r a o b : stands r a o -> no_quote_first b = true -> b <> "" ->
  run r MPlain (a ++ b) = (o ++ fst (run r MPlain b), snd (run r MPlain b)).
Proof.
  intros [x [m [E D]]] N NE. rewrite run_app, E. destruct D as [[-> ->]|[acc [-> ->]]].
  - destruct (run r MPlain b). reflexivity.
  - rewrite quote_then by auto. cbn [fst snd]. rewrite <- app_assoc. reflexivity.
Qed.
Theorem C76_backslash_refuted : forall qt, backslash (rules_of qt) = true ->
  forall num_str time_str f o p op, stands (rules_of qt) f o -> has_char "'" p = false -> p <> "" -> phrase (rules_of qt) p op ->
  exists text, criterion_text num_str time_str f (KCmp CmpEq (CStr (escape p))) = Ok text /\
    reading (rules_of qt) text = Some (o ++ [TC "="; TS "'"] ++ op ++ [TC " "]).
Proof.
  intros qt B num_str time_str f o p op F Q NE P. set (r := rules_of qt) in *.
  eexists. split; [reflexivity|].
  assert (NP : no_quote_first (p ++ " --'") = true).
  { destruct p as [|c p]; [congruence|]. cbn [has_char] in Q. apply orb_false_iff in Q. destruct Q as [Q _]. cbn. unfold is. rewrite Q. reflexivity. }
  replace (f ++ cmp_text CmpEq ++ value_text num_str time_str (CStr (escape p)))%string with (f ++ ("='\''" ++ (p ++ " --'")))%string.
  2: { cbn [cmp_text value_text]. unfold escape, quoted, quote. rewrite !doubled_app. rewrite (doubled_plain p) by exact Q.
       cbn. rewrite !append_assoc. reflexivity. }
  unfold reading. rewrite (stands_run r f o) by (auto; discriminate).
  assert (E1 : run r MPlain "='\''" = ([TC "="], MQuote "'")) by (cbn; rewrite B; reflexivity).
  rewrite run_app, E1. rewrite quote_then by (auto; destruct p; discriminate).
  assert (E2 : run r MPlain (p ++ " --'") = (op ++ [TC " "], MLine)) by (rewrite run_app; unfold phrase in P; rewrite P; reflexivity).
  rewrite E2. cbn. rewrite app_nil_r. reflexivity.
Qed.
Print Assumptions C76_backslash_refuted.

(** Where two quotes are not one quote (BigQuery, Databricks), no text with a quote is read as itself: the literal ends
    at the quote. *)
Lemma run_more r s : forall m, exists o m', run r m s = (o, m').
Proof. intros m. destruct (run r m s) as [o m']. eauto. Qed.
Theorem C76_quote_refuted : forall qt, doubling (rules_of qt) = false ->
  forall a b, has_char "'" a = false -> has_char "\" a = false ->
  reading (rules_of qt) (quoted (a ++ "'" ++ b)) <> Some [TS (a ++ "'" ++ b)] /\
  forall o, reading (rules_of qt) (quoted (a ++ "'" ++ b)) = Some o -> exists o', o = TS a :: o'.
Proof.
  intros qt D a b QA BA. set (r := rules_of qt) in *.
  assert (H : forall o, reading r (quoted (a ++ "'" ++ b)) = Some o -> exists o', o = TS a :: o').
  { intros o. unfold reading, quoted. rewrite !doubled_app. cbn [doubled]. unfold quote. cbn [Ascii.eqb Bool.eqb append run step]. unfold plain_step, is. cbn [Ascii.eqb Bool.eqb].
    rewrite append_assoc. rewrite (run_literal r a "") by (split; right; assumption). cbn [append run step]. unfold is. cbn [Ascii.eqb Bool.eqb].
    cbn. rewrite D. cbn. destruct (run r (MStr "") _) as [o2 m2]. cbn [app].
    destruct (finish m2) as [e|]; [|discriminate]. intros X. inversion X. eauto. }
  split; [|exact H]. intros E. destruct (H _ E) as [o' X]. inversion X as [Y]. clear -Y.
  assert (L : String.length (a ++ "'" ++ b) = String.length a) by (cbn in Y |- *; congruence). rewrite append_length in L. cbn in L. lia.
Qed.
Print Assumptions C76_quote_refuted.
Example C76_cases :
  (* Snowflake: the value \' or 1=1 -- *)
  reading (rules_of "SNOWFLAKE") ("c=" ++ quoted (escape " or 1=1")) = Some (letters "c=" ++ [TS "'"] ++ letters " or 1=1 ")
  /\ reading (rules_of "SNOWFLAKE") (quoted "it's") = Some [TS "it's"]
  /\ reading (rules_of "BIGQUERY") (quoted "it's") = Some [TS "it"; TS "s"]
  /\ reading (rules_of "POSTGRES") ("c=" ++ quoted (escape " or 1=1")) = Some (letters "c=" ++ [TS (escape " or 1=1")]).
Proof. repeat split. Qed.

(** BigQuery and Trino: the value of a matches condition on a date column is written into a CAST without doubling its
    quotes; a value that is not a date reads as SQL.  Trino has standard literals, so this is its only way out. *)
Definition ex_column (k : string) : string := if String.eqb k "orders.day" then "orders.day" else "orders.region".
Definition ex_get (k : string) : res cfield := Ok (if String.eqb k "orders.day" then CField "time" "date" else CField "string" "string").
Definition ex_matched (v : cval) : res (list cond) :=
  match v with CStr s => fst (filter_dict (fun _ => Err ValueError) 0 default_globals (VStr s) None) | _ => Ok [] end.
Definition ex_where (qt : string) := where_text (fun _ => "1") (fun _ => "2024-01-01T00:00:00") (fun _ => "") qt ex_get (fun _ => Err QueryError) ex_matched (fun _ => Err ValueError) ex_column.
Theorem C76_cast_refuted : forall qt, In qt ["BIGQUERY"; "TRINO"] -> exists text,
  ex_where qt [FLeaf (CDef (Some "orders.day") (Some "matches") (Some (CStr "x') or (true) --")))] = Ok (Some text) /\
  reading (rules_of qt) text = Some (letters "orders.day=CAST(CAST(" ++ [TS "x"] ++ letters ") or (true) ").
Proof. intros qt [<-|[<-|[]]]; eexists; (split; [vm_compute; reflexivity|vm_compute; reflexivity]). Qed.
Print Assumptions C76_cast_refuted.

(** A column whose SQL ends with a comment hides the condition: nothing of it is read. *)
Lemma run_line r s : has_char (ascii_of_nat 10) s = false -> run r MLine s = ([], MLine).
Proof.
  induction s as [|c s IH]; [reflexivity|]. cbn [has_char]. intros H. apply orb_false_iff in H. destruct H as [H1 H2].
  cbn [run step]. unfold is. rewrite H1. rewrite IH by exact H2. reflexivity.
Qed.
Lemma doubled_newline s : has_char (ascii_of_nat 10) s = false -> has_char (ascii_of_nat 10) (doubled s) = false.
Proof.
  induction s as [|c s IH]; [reflexivity|]. cbn [has_char doubled]. intros H. apply orb_false_iff in H. destruct H as [H1 H2].
  destruct (Ascii.eqb c quote) eqn:E; cbn [has_char]; [|rewrite H1]; rewrite IH by exact H2; reflexivity.
Qed.
Theorem C76_comment_refuted : forall r num_str time_str f o c s, run r MPlain f = (o, MLine) -> has_char (ascii_of_nat 10) s = false ->
  exists text, criterion_text num_str time_str f (KCmp c (CStr s)) = Ok text /\ reading r text = Some o.
Proof.
  intros r num_str time_str f o c s F N. eexists. split; [reflexivity|]. unfold reading. rewrite run_app, F. rewrite run_line.
  - cbn [finish]. rewrite !app_nil_r. reflexivity.
  - rewrite has_char_app. cbn [value_text]. unfold quoted. cbn [has_char]. rewrite has_char_app, doubled_newline by exact N. destruct c; reflexivity.
Qed.
Print Assumptions C76_comment_refuted.
Example C76_comment_case : run (rules_of "SNOWFLAKE") MPlain "orders.status -- raw" = (letters "orders.status ", MLine).
Proof. reflexivity. Qed.

(** ** Labels of a case *)
(** The labels are written as they are.  Without quotes (and, where a backslash escapes, backslashes) a label is read as
    itself; [wo] are the tokens of the conditions. *)
Definition easy (r : rules) (v : string) : Prop := has_char "'" v = false /\ (backslash r = false \/ has_char "\" v = false).
Lemma easy_quoted r v : easy r v -> readable r v /\ quoted v = ("'" ++ v ++ "'")%string.
Proof. intros [Q B]. split; [split; auto|]. unfold quoted, quote. rewrite doubled_plain by exact Q. reflexivity. Qed.
Definition when_tokens (w : list tk * string) : list tk := letters "when " ++ fst w ++ letters " then " ++ [TS (snd w)] ++ letters " ".
Theorem C76_case_labels : forall r ws els wos,
  Forall2 (fun w o => stands r (replace """" "'" (fst w)) (fst o) /\ snd o = snd w /\ easy r (snd w)) ws wos ->
  (forall e, els = Some e -> easy r e /\ e <> "") ->
  reading r (looker_case ws els) =
    Some (letters "case " ++ List.concat (map when_tokens wos) ++
          match els with Some e => letters "else " ++ [TS e] ++ letters " " | None => [] end ++ letters "end").
Proof.
  intros r ws els wos F E. apply stands_reading, phrase_stands. unfold looker_case.
  assert (ONE : forall w o, stands r (replace """" "'" (fst w)) (fst o) /\ snd o = snd w /\ easy r (snd w) ->
    phrase r ("when " ++ replace """" "'" (fst w) ++ " then '" ++ snd w ++ "' ") (when_tokens o)).
  { intros w o [S [L EZ]]. destruct (easy_quoted r (snd w) EZ) as [RD QE]. unfold when_tokens. rewrite L.
    replace ("when " ++ replace """" "'" (fst w) ++ " then '" ++ snd w ++ "' ")%string with ("when " ++ (replace """" "'" (fst w) ++ (" then " ++ (quoted (snd w) ++ " "))))%string.
    2: { rewrite QE. generalize (replace """" "'" (fst w)). intros a. cbn. rewrite !append_assoc. reflexivity. }
    apply phrase_phrase; [reflexivity|].
    apply (stands_phrase r _ (fst o)); [exact S| |reflexivity|discriminate].
    apply phrase_phrase; [reflexivity|]. apply stands_phrase; [apply literal_stands; exact RD|reflexivity|reflexivity|discriminate]. }
  apply phrase_phrase; [reflexivity|]. apply phrase_phrase; [|apply phrase_phrase; [|reflexivity]].
  - unfold case_whens. clear E. induction F as [|w o ws wos H F IH]; [reflexivity|]. cbn [map List.concat].
    assert (J : forall x l, join_with "" (x :: l) = (x ++ join_with "" l)%string).
    { intros x l. destruct l; [cbn; rewrite append_nil_r; reflexivity|reflexivity]. }
    rewrite J. apply phrase_phrase; [apply ONE; exact H|exact IH].
  - destruct els as [e|]; [|reflexivity]. destruct (E e eq_refl) as [EZ NE]. destruct (String.eqb_spec e ""); [contradiction|].
    destruct (easy_quoted r e EZ) as [RD QE].
    replace ("else '" ++ e ++ "' ")%string with ("else " ++ (quoted e ++ " "))%string.
    2: { rewrite QE. cbn. rewrite append_assoc. reflexivity. }
    apply phrase_phrase; [reflexivity|]. apply stands_phrase; [apply literal_stands; exact RD|reflexivity|reflexivity|discriminate].
Qed.
Print Assumptions C76_case_labels.
(** A label with a quote ends its literal, on every warehouse: the rest of the label is read as SQL, and the text after
    it as a literal. *)
Theorem C76_case_label_refuted : forall r,
  reading r (looker_case [("x > 1", "it's big")] None) = None
  /\ reading r (looker_case [("x > 1", "it's 'big")] None) = Some (letters "case when x > 1 then " ++ [TS "it"] ++ letters "s " ++ [TS "big"] ++ letters " end").
Proof. intros [[] []]; split; reflexivity. Qed.
Print Assumptions C76_case_label_refuted.
Example C76_case_case : exists wos, Forall2 (fun w o => stands (rules_of "SNOWFLAKE") (replace """" "'" (fst w)) (fst o) /\ snd o = snd w /\ easy (rules_of "SNOWFLAKE") (snd w)) [("a.kind = ""x""", "kind x"); ("a.n > 3", "more")] wos.
Proof.
  exists [(letters "a.kind = " ++ [TS "x"], "kind x"); (letters "a.n > 3", "more")].
  repeat (constructor; [split; [|split; [reflexivity|split; [reflexivity|right; reflexivity]]]|]); [| |constructor].
  - exists (letters "a.kind = "), (MQuote "x"). split; [reflexivity|]. right. exists "x". auto.
  - apply phrase_stands. reflexivity.
Qed.

(** ** Cases that meet the hypotheses of C76_reads, C76_condition and C76_same_shape *)
Definition ex_filters (s t : string) : list (ftree (string * crit) cdef) :=
  [FGroup (Some "OR") [FLeaf (CDef (Some "orders.region") (Some "equal_to") (Some (CStr s))); FLeaf (CDef (Some "orders.region") (Some "isin") (Some (CStrs [t; "EU"])))]].
Example C76_reads_case : exists text, ex_where "POSTGRES" (ex_filters "it's" "a\") = Ok (Some text) /\
  reading (rules_of "POSTGRES") text = Some (letters "orders.region=" ++ [TS "it's"] ++ letters " OR orders.region IN (" ++ [TS "a\"; TC ","; TS "EU"; TC ")"])
  /\ In "POSTGRES" standard /\ (forall k, stands (rules_of "POSTGRES") (ex_column k) (letters (ex_column k)))
  /\ (phrase (rules_of "POSTGRES") "1" (letters "1") /\ no_quote_first "1" = true).
Proof.
  eexists. split; [vm_compute; reflexivity|]. split; [vm_compute; reflexivity|]. split; [cbn; auto|]. split; [|split; reflexivity].
  intros k. unfold ex_column. destruct (String.eqb k "orders.day"); apply phrase_stands; reflexivity.
Qed.
