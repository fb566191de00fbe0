(** C88: the tokens of a timeframe spell the text of the timeframe. *)
From Coq Require Import List String Ascii Bool Arith ZArith Lia.
From Verif Require Import PyBase PyStr Prec_Model Timeframe_Model Week_Model PrecTime_Model.
Import ListNotations.
Local Open Scope string_scope.
Local Open Scope list_scope.

(** A call is spelled by its name up to #, its operand, and the rest of its name where it is closed *)
Fixpoint before (f : string) : string :=
  match f with EmptyString => "" | String c r => if Ascii.eqb c "#" then "" else String c (before r) end.
Fixpoint after (f : string) : string :=
  match f with EmptyString => "" | String c r => if Ascii.eqb c "#" then r else after r end.
Definition op_name (o : op) : string := match o with OOr => "or" | OAnd => "and" | OCmp s | OAdd s | OMul s => s end.
Fixpoint spell (open : list string) (ts : list tok) : string :=
  match ts with
  | [] => ""
  | TAtom s :: r => s ++ spell open r
  | TRef x :: r => "${" ++ x ++ "}" ++ spell open r
  | TOp o :: r => " " ++ op_name o ++ " " ++ spell open r
  | TNot :: r => "NOT " ++ spell open r
  | TOpen :: r => "(" ++ spell (")" :: open) r
  | TCall f :: r => before f ++ spell (after f :: open) r
  | TClose :: r => match open with [] => "" | s :: open => s ++ spell open r end
  | TCase :: r => "case when " ++ spell open r
  | TThen :: r => " then " ++ spell open r
  | TEnd :: r => " end" ++ spell open r
  end%string.
Definition spells (ts : list tok) (s : string) : Prop := forall open rest, spell open (ts ++ rest) = (s ++ spell open rest)%string.

Fixpoint unmarked (s : string) : bool := match s with EmptyString => true | String c r => negb (Ascii.eqb c "#") && unmarked r end.
Lemma before_mark : forall a b, unmarked a = true -> before (a ++ "#" ++ b) = a.
Proof.
  induction a as [|c a IH]; intros b U; [reflexivity|]. cbn in *. apply andb_true_iff in U. destruct U as [C U].
  apply negb_true_iff in C. rewrite C. now rewrite IH.
Qed.
Lemma after_mark : forall a b, unmarked a = true -> after (a ++ "#" ++ b) = b.
Proof.
  induction a as [|c a IH]; intros b U; [reflexivity|]. cbn in *. apply andb_true_iff in U. destruct U as [C U].
  apply negb_true_iff in C. rewrite C. now rewrite IH.
Qed.
Lemma unmarked_app : forall a b, unmarked (a ++ b) = unmarked a && unmarked b.
Proof. induction a as [|c a IH]; intro b; [reflexivity|]. cbn. rewrite IH. apply andb_assoc. Qed.
Lemma sapp_assoc : forall a b c : string, ((a ++ b) ++ c = a ++ b ++ c)%string.
Proof. induction a as [|x a IH]; intros; [reflexivity|]. cbn. now rewrite IH. Qed.
Lemma spells_enclose : forall a b f t s r, f = (a ++ "#" ++ b)%string -> unmarked a = true -> spells t s -> r = (a ++ s ++ b)%string ->
  spells (enclose f t) r.
Proof.
  intros a b f t s r -> U H -> open rest. unfold enclose. cbn [app spell]. rewrite <- app_assoc, H. cbn [app spell].
  now rewrite before_mark, after_mark, !sapp_assoc.
Qed.
Lemma spells_last : forall t s o a, spells t s -> spells (t ++ [TOp o; TAtom a]) (s ++ " " ++ op_name o ++ " " ++ a).
Proof. intros t s o a H open rest. rewrite <- app_assoc, H. cbn [app spell]. now rewrite !sapp_assoc. Qed.
Lemma spells_bin : forall t s o t' s', spells t s -> spells t' s' -> spells (t ++ TOp o :: t') (s ++ " " ++ op_name o ++ " " ++ s').
Proof. intros t s o t' s' H H' open rest. rewrite <- app_assoc, H. cbn [app spell]. rewrite H'. now rewrite !sapp_assoc. Qed.
Lemma spells_atom : forall s, spells [TAtom s] s.
Proof. intros s open rest. reflexivity. Qed.

(** The texts written before the operand *)
Fixpoint plain (x : texpr) : bool :=
  match x with
  | XCol => true
  | XExtract p e | XDatepart p e | XLeftName p e | XFormatFirst p e => unmarked p && plain e
  | XDateadd n e => unmarked (Timeframe_Model.z_str n) && plain e
  | XCast e _ | XTrunc _ e | XDateTrunc e _ | XDatetimeTrunc e _ | XAddDiff _ e | XToChar e _
  | XDateFormat e _ | XFormatDatetime e _ | XCastFormat e _ | XCase e _ _ 
  | XDateAdd e _ | XConvert e | XDatetimeZone e | XInterval e _ | XAtZone e => plain e
  end.
Ltac wrap a b IH := apply (spells_enclose a b) with (3 := IH);
  [unfold named; cbn [render]; rewrite ?sapp_assoc; reflexivity
  | rewrite ?unmarked_app;
    repeat match goal with
           | E : unmarked _ = true |- _ => rewrite E
           | |- context [part_name ?p] => is_var p; destruct p
           end; reflexivity
  | rewrite ?sapp_assoc; reflexivity].
Lemma frame_spells : forall tz t s x, unmarked tz = true -> plain x = true -> spells t s -> spells (frame_text tz t x) (render tz s x).
Proof.
  intros tz t s x Z P H. induction x; cbn [frame_text render plain] in *; try exact H;
    try (apply andb_true_iff in P; destruct P as [P' P]); specialize (IHx P).
  - wrap "CAST(" (" AS " ++ ty ++ ")")%string IHx.
  - wrap ("DATE_TRUNC('" ++ part_name p ++ "', ")%string ")" IHx.
  - wrap "DATE_TRUNC(" (", " ++ part_name p ++ ")")%string IHx.
  - wrap "DATETIME_TRUNC(" (", " ++ part_name p ++ ")")%string IHx.
  - wrap ("DATEADD(" ++ part_name p ++ ", DATEDIFF(" ++ part_name p ++ ", 0, ")%string "), 0)" IHx.
  - wrap ("EXTRACT(" ++ p ++ " FROM ")%string ")" IHx.
  - wrap ("DATEPART(" ++ p ++ ", ")%string ")" IHx.
  - wrap "TO_CHAR(" (", '" ++ f ++ "')")%string IHx.
  - wrap "DATE_FORMAT(" (", '" ++ f ++ "')")%string IHx.
  - wrap "FORMAT_DATETIME(" (", '" ++ f ++ "')")%string IHx.
  - wrap ("FORMAT_DATETIME('" ++ f ++ "', ")%string ")" IHx.
  - wrap "CAST(" (" AS STRING FORMAT '" ++ f ++ "')")%string IHx.
  - wrap ("LEFT(DATENAME(" ++ p ++ ", ")%string "), 3)" IHx.
  - wrap "CASE " (concat "" (map (fun x => (" WHEN " ++ Timeframe_Model.z_str (fst x) ++ " THEN '" ++ snd x ++ "'")%string) l) ++ " ELSE '" ++ d ++ "' END")%string IHx.
  - wrap ("DATEADD(MONTH, " ++ Timeframe_Model.z_str n ++ ", ")%string ")" IHx.
  - apply (spells_last _ _ (OAdd "+")). exact IHx.
  - wrap "DATE_ADD(" (", INTERVAL " ++ Timeframe_Model.z_str n ++ " MONTH)")%string IHx.
  - wrap ("CONVERT_TIMEZONE('" ++ tz ++ "', ")%string ")" IHx.
  - wrap "DATETIME(" (", '" ++ tz ++ "')")%string IHx.
  - assert (Q := spells_last _ _ (OMul "at time zone") ("'" ++ tz ++ "'")%string (spells_last _ _ (OMul "at time zone") "'UTC'" IHx)).
    rewrite !sapp_assoc in Q. exact Q.
Qed.
Lemma digit_unmarked : forall n, n < 10 -> Ascii.eqb (digit n) "#" = false.
Proof. intros n L. do 10 (destruct n as [|n]; [reflexivity|]). lia. Qed.
Lemma nat_str_unmarked : forall n, unmarked (nat_str n) = true.
Proof.
  assert (A : forall fuel n acc, unmarked acc = true -> unmarked (nat_str_fuel fuel n acc) = true).
  { induction fuel as [|k IH]; intros n acc U; [exact U|]. cbn [nat_str_fuel].
    assert (D : unmarked (String (digit (n mod 10)) acc) = true).
    { cbn [unmarked]. rewrite digit_unmarked by (apply Nat.mod_upper_bound; lia). exact U. }
    destruct (Nat.ltb n 10); [exact D | apply IH; exact D]. }
  intro n. apply A. reflexivity.
Qed.
Lemma z_str_unmarked : forall z, unmarked (Timeframe_Model.z_str z) = true.
Proof. intro z. unfold Timeframe_Model.z_str. destruct (z <? 0)%Z; [cbn [append unmarked]|]; apply nat_str_unmarked. Qed.
Lemma time_plain : forall dt zone o qt name x, time_sql dt zone o qt name = Ok x -> plain x = true.
Proof.
  intros dt zone o qt name x H. unfold time_sql in H. apply bind_ok in H. destruct H as [s [A H]].
  destruct (table qt dt) as [g|] eqn:T; [|discriminate]. destruct (assoc name frames) as [f|]; [|discriminate].
  apply bind_ok in H. destruct H as [s' [C H]]. injection H as <-.
  assert (P : plain s = true).
  { destruct zone; [|now injection A as <-]. unfold apply_timezone in A.
    repeat match type of A with (if ?b then _ else _) = _ => destruct b; [injection A as <-; reflexivity|] end. discriminate. }
  assert (P' : plain s' = true).
  { destruct (is_fiscal f); [|now injection C as <-]. unfold fiscal in C.
    repeat match type of C with (if ?b then _ else _) = _ => destruct b; [injection C as <-; cbn; rewrite ?z_str_unmarked, ?P; reflexivity|] end.
    discriminate. }
  clear A C. unfold table in T. destruct (find _ _) as [y|] eqn:E; [|discriminate]. injection T as <-. apply find_some in E. destruct E as [I _].
  repeat destruct I as [<-|I]; try contradiction; destruct f; cbn; rewrite ?P'; reflexivity.
Qed.
(** Whatever the text of the dimension's sql, the tokens of a timeframe spell the text that is sent (a time zone's name has
    no #, which marks the operand here). *)
Theorem C88_timeframe_text : forall tz dt zone o qt name x t s,
  time_sql dt zone o qt name = Ok x -> unmarked tz = true -> spells t s -> spells (frame_text tz t x) (render tz s x).
Proof. intros. apply frame_spells; [assumption | eapply time_plain; eassumption | assumption]. Qed.

Lemma spells_call : forall f t s, f = (before f ++ "#" ++ after f)%string -> unmarked (before f) = true -> spells t s ->
  spells (enclose f t) (before f ++ s ++ after f).
Proof. intros f t s E U H. eapply spells_enclose; [exact E | exact U | exact H | reflexivity]. Qed.
Lemma spells_eq : forall t a b, spells t a -> a = b -> spells t b.
Proof. intros t a b H <-. exact H. Qed.
Ltac spelled H := eapply spells_eq;
  [repeat first [exact H | apply spells_call; [reflexivity | reflexivity |] | apply spells_last | apply spells_bin]
  | rewrite ?sapp_assoc; reflexivity].
(** The texts of weeks as the code writes them, field.py:1403-1429, o being the day of the week's start counted back from Monday *)
Definition week_written (wsd qt s : string) : string :=
  (let o := match assoc wsd [("sunday", "1"); ("saturday", "2"); ("friday", "3"); ("thursday", "4"); ("wednesday", "5"); ("tuesday", "6")] with
            | Some o => o | None => "" end in
   let monday := String.eqb wsd "monday" in
   if mem qt ["SNOWFLAKE"; "REDSHIFT"] then
     if monday then "DATE_TRUNC('WEEK', CAST(" ++ s ++ " AS DATE))"
     else "DATE_TRUNC('WEEK', CAST(" ++ s ++ " AS DATE) + " ++ o ++ ") - " ++ o
   else if mem qt ["SQL_SERVER"; "AZURE_SYNAPSE"] then
     if monday then "DATEADD(WEEK, DATEDIFF(WEEK, 0, CAST(" ++ s ++ " AS DATE)), 0)"
     else "DATEADD(DAY, -" ++ o ++ ", DATEADD(WEEK, DATEDIFF(WEEK, 0, DATEADD(DAY, " ++ o ++ ", CAST(" ++ s ++ " AS DATE))), 0))"
   else
     if monday then "DATE_TRUNC('WEEK', CAST(" ++ s ++ " AS TIMESTAMP))"
     else "DATE_TRUNC('WEEK', CAST(" ++ s ++ " AS TIMESTAMP) + INTERVAL '" ++ o ++ "' DAY) - INTERVAL '" ++ o ++ "' DAY")%string.
Theorem C88_week_text : forall wsd qt x t s,
  week_sql wsd qt = Ok x -> qt <> "BIGQUERY" -> spells t s -> spells (week_text t x) (week_written wsd qt s).
Proof.
  intros wsd qt x t s H N Q.
  assert (W : In qt ["SNOWFLAKE"; "REDSHIFT"; "POSTGRES"; "DRUID"; "DUCK_DB"; "DATABRICKS"; "TRINO"; "SQL_SERVER"; "AZURE_SYNAPSE"]).
  { unfold week_sql in H. apply bind_ok in H. destruct H as [e [H _]].
    assert (T : exists d o, week_sql_date_trunc d o qt <> Err QueryError).
    { destruct (String.eqb wsd "monday"); [exists DCol, None; congruence|].
      destruct (assoc wsd offset_lookup) as [o|]; [|discriminate]. exists DCol, (Some o). intro E. rewrite E in H. discriminate. }
    destruct T as [d [o T]]. unfold week_sql_date_trunc in T.
    destruct (mem qt ["SNOWFLAKE"; "REDSHIFT"]) eqn:M1; [apply mem_In in M1; cbn in *; tauto|].
    destruct (mem qt q_interval) eqn:M2; [apply mem_In in M2; cbn in *; tauto|].
    destruct (String.eqb qt "BIGQUERY") eqn:M3; [apply String.eqb_eq in M3; contradiction|].
    destruct (mem qt ["SQL_SERVER"; "AZURE_SYNAPSE"]) eqn:M4; [apply mem_In in M4; cbn in *; tauto | congruence]. }
  assert (D : In wsd ["monday"; "sunday"; "saturday"; "friday"; "thursday"; "wednesday"; "tuesday"]).
  { unfold week_sql in H. destruct (String.eqb wsd "monday") eqn:M; [apply String.eqb_eq in M; subst; cbn; tauto|].
    destruct (assoc wsd offset_lookup) as [o|] eqn:A; [|discriminate]. apply assoc_In in A. apply (in_map fst) in A. cbn in *. tauto. }
  clear N. cbn [In] in W, D. unfold week_written.
  repeat destruct W as [<-|W]; try contradiction; repeat destruct D as [<-|D]; try contradiction; cbn in H; injection H as <-; cbn [week_text];
  spelled Q.
Qed.
(** The week of the month, field.py:1036-1038 *)
Theorem C88_week_of_month_text : forall t s, spells t s ->
  spells (week_text t week_of_month_sql) ("EXTRACT(WEEK FROM " ++ s ++ ") - EXTRACT(WEEK FROM DATE_TRUNC('MONTH', " ++ s ++ ")) + 1").
Proof. intros t s H. unfold week_of_month_sql. cbn [week_text]. spelled H. Qed.
Example C88_timeframe_text_example :
  (exists x, time_sql Timestamp true 2 "POSTGRES" "fiscal_quarter" = Ok x /\
     spell [] (frame_text "America/New_York" [TAtom "o.created"] x) =
       "DATE_TRUNC('QUARTER', CAST(CAST(CAST(o.created AS TIMESTAMP) at time zone 'UTC' at time zone 'America/New_York' AS TIMESTAMP) + INTERVAL '2' MONTH AS TIMESTAMP))")
  /\ (exists x, week_sql "sunday" "SNOWFLAKE" = Ok x /\
     spell [] (week_text [TAtom "o.created"] x) = "DATE_TRUNC('WEEK', CAST(o.created AS DATE) + 1) - 1") /\ spells [TAtom "o.created"] "o.created".
Proof. split; [|split; [|apply spells_atom]]; eexists; split; reflexivity. Qed.

Print Assumptions C88_timeframe_text.
Print Assumptions C88_week_text.
Print Assumptions C88_week_of_month_text.
