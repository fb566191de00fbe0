(** C53: the SQL of a timeframe is the text that stands in the code, for every warehouse, timeframe, column and offset. *)
From Coq Require Import List String ZArith Bool Lia.
From Verif Require Import PyBase PyStr Timeframe_Model TimeText_Spec.
Import ListNotations.
Local Open Scope string_scope.
Local Open Scope list_scope.

Lemma str_app a b c : ((a ++ b) ++ c = a ++ (b ++ c))%string.
Proof. induction a as [|x a IH]; cbn [append]; [reflexivity|]. now rewrite IH. Qed.
Lemma str_nil a : (a ++ "" = a)%string.
Proof. induction a as [|x a IH]; cbn [append]; [reflexivity|]. now rewrite IH. Qed.

(** the number as Python writes it: digits, with a minus in front when it is negative *)
Definition decimal (o : Z) : string := if (o <? 0)%Z then ("-" ++ nat_str (Z.abs_nat o))%string else nat_str (Z.abs_nat o).
Lemma z_str_decimal o : z_str o = decimal o.
Proof. unfold z_str, decimal. destruct (Z.ltb_spec o 0); [f_equal|]; f_equal; lia. Qed.

Ltac norm := repeat (progress (rewrite ?str_app, ?str_nil; cbn [append])).

Lemma zone_ok qt tbl dt tz sql : In (qt, tbl) code_tables ->
  exists e, apply_timezone dt XCol qt = Ok e /\ render tz sql e = zoned_text qt tz sql (type_name dt).
Proof.
  intros H. cbn [In code_tables] in H.
  repeat (destruct H as [H|H]; [injection H as <- <-; eexists; split; [reflexivity|cbn [render]; unfold zoned_text; cbn [existsb String.eqb Ascii.eqb Bool.eqb orb]; norm; reflexivity]|]).
  destruct H.
Qed.
Lemma fiscal_ok qt tbl o s tz sql : In (qt, tbl) code_tables ->
  exists e, fiscal o s qt = Ok e /\ render tz sql e = (if (o =? 0)%Z then render tz sql s else moved_text qt (decimal o) (render tz sql s)).
Proof.
  intros H. unfold fiscal. destruct (o =? 0)%Z; [eexists; split; reflexivity|]. cbn [In code_tables] in H.
  repeat (destruct H as [H|H]; [injection H as <- <-; eexists; split; [reflexivity|cbn [render]; rewrite z_str_decimal; reflexivity]|]).
  destruct H.
Qed.

Lemma months_text : map (fun x : Z * string => (" WHEN " ++ z_str (fst x) ++ " THEN '" ++ snd x ++ "'")%string) months =
  [" WHEN 1 THEN 'Jan'"; " WHEN 2 THEN 'Feb'"; " WHEN 3 THEN 'Mar'"; " WHEN 4 THEN 'Apr'"; " WHEN 5 THEN 'May'"; " WHEN 6 THEN 'Jun'";
   " WHEN 7 THEN 'Jul'"; " WHEN 8 THEN 'Aug'"; " WHEN 9 THEN 'Sep'"; " WHEN 10 THEN 'Oct'"; " WHEN 11 THEN 'Nov'"; " WHEN 12 THEN 'Dec'"].
Proof. vm_compute. reflexivity. Qed.
Lemma weekdays_text : map (fun x : Z * string => (" WHEN " ++ z_str (fst x) ++ " THEN '" ++ snd x ++ "'")%string) weekdays =
  [" WHEN 1 THEN 'Mon'"; " WHEN 2 THEN 'Tue'"; " WHEN 3 THEN 'Wed'"; " WHEN 4 THEN 'Thu'"; " WHEN 5 THEN 'Fri'"; " WHEN 6 THEN 'Sat'"; " WHEN 7 THEN 'Sun'"].
Proof. vm_compute. reflexivity. Qed.

Ltac one I := injection I as <- <-; eexists; split; [reflexivity|]; intros tz sql s x;
  cbn [is_fiscal snowflake databricks postgres trino druid sql_server bigquery common ts render fill fold_right part_name];
  rewrite ?months_text, ?weekdays_text; generalize (render tz sql s); intros y; cbn [concat]; norm; reflexivity.
Ltac each I := lazymatch type of I with _ \/ _ => destruct I as [I|I]; [one I|each I] | False => destruct I end.

Definition row_ok (dt : datatype) (t : frame -> texpr -> texpr) (name : string) (tpl : list piece) : Prop :=
  exists f, assoc name frames = Some f /\
  forall tz sql s x, render tz sql (t f s) = (if is_fiscal f then fill x (render tz sql s) (type_name dt) tpl else fill (render tz sql s) x (type_name dt) tpl).
Lemma snowflake_ok dt name tpl : In (name, tpl) snowflake_text -> row_ok dt snowflake name tpl.
Proof. intros I. unfold row_ok. cbn [In snowflake_text] in I. each I. Qed.
Lemma databricks_ok dt name tpl : In (name, tpl) databricks_text -> row_ok dt databricks name tpl.
Proof. intros I. unfold row_ok. cbn [In databricks_text] in I. each I. Qed.
Lemma postgres_ok dt name tpl : In (name, tpl) postgres_text -> row_ok dt postgres name tpl.
Proof. intros I. unfold row_ok. cbn [In postgres_text] in I. each I. Qed.
Lemma trino_ok dt name tpl : In (name, tpl) trino_text -> row_ok dt trino name tpl.
Proof. intros I. unfold row_ok. cbn [In trino_text] in I. each I. Qed.
Lemma druid_ok dt name tpl : In (name, tpl) druid_text -> row_ok dt druid name tpl.
Proof. intros I. unfold row_ok. cbn [In druid_text] in I. each I. Qed.
Lemma sql_server_ok dt name tpl : In (name, tpl) sql_server_text -> row_ok dt sql_server name tpl.
Proof. intros I. unfold row_ok. cbn [In sql_server_text] in I. each I. Qed.
Lemma bigquery_ok dt name tpl : In (name, tpl) bigquery_text -> row_ok dt (bigquery dt) name tpl.
Proof. intros I. unfold row_ok. cbn [In bigquery_text] in I. each I. Qed.

Lemma table_ok qt tbl dt name tpl : In (qt, tbl) code_tables -> In (name, tpl) tbl ->
  exists t, table qt dt = Some t /\ row_ok dt t name tpl.
Proof.
  intros H I. cbn [In code_tables] in H.
  repeat (destruct H as [H|H]; [injection H as <- <-; eexists; split; [reflexivity|];
    first [now apply snowflake_ok|now apply databricks_ok|now apply postgres_ok|now apply trino_ok|now apply druid_ok|now apply sql_server_ok|now apply bigquery_ok]|]).
  destruct H.
Qed.

(** Every timeframe of every warehouse has the text of the code: the column with its time zone, moved by the fiscal offset where the
    timeframe is fiscal, in the template of the timeframe. *)
Theorem C53_text qt tbl name tpl dt (zone : bool) (o : Z) tz sql : In (qt, tbl) code_tables -> In (name, tpl) tbl ->
  let s := if zone then zoned_text qt tz sql (type_name dt) else sql in
  let f := if Z.eqb o 0 then s else moved_text qt (decimal o) s in
  exists e, time_sql dt zone o qt name = Ok e /\ render tz sql e = fill s f (type_name dt) tpl.
Proof.
  intros H I s f. destruct (table_ok qt tbl dt name tpl H I) as (t & T & fr & A & R).
  assert (Z1 : exists e1, (if zone then apply_timezone dt XCol qt else Ok XCol) = Ok e1 /\ render tz sql e1 = s).
  { unfold s. destruct zone; [now apply (zone_ok qt tbl)|]. exists XCol. now split. }
  destruct Z1 as (e1 & E1 & R1). destruct (fiscal_ok qt tbl o e1 tz sql H) as (e2 & E2 & R2).
  unfold time_sql. rewrite E1. cbn [bind]. rewrite T, A. destruct (is_fiscal fr) eqn:F.
  - rewrite E2. cbn [bind]. eexists; split; [reflexivity|]. rewrite (R tz sql e2 s). unfold f. now rewrite R2, R1.
  - cbn [bind]. eexists; split; [reflexivity|]. rewrite (R tz sql e1 f). now rewrite R1.
Qed.
Print Assumptions C53_text.

(** the other names of a timeframe have its text *)
Theorem C53_alias_text dt zone o qt a name : In (a, name) code_aliases -> time_sql dt zone o qt a = time_sql dt zone o qt name.
Proof. intros [H|[H|[H|[]]]]; injection H as <- <-; reflexivity. Qed.
Print Assumptions C53_alias_text.

Example C53_text_case :
  (exists e, time_sql Timestamp true 3 "SNOWFLAKE" "fiscal_quarter" = Ok e /\ render "America/New_York" "t.d" e =
     "DATE_TRUNC('QUARTER', DATEADD(MONTH, 3, CAST(CAST(CONVERT_TIMEZONE('America/New_York', t.d) AS TIMESTAMP_NTZ) AS TIMESTAMP)))") /\
  decimal 0 = "0" /\ decimal (-12) = "-12" /\ decimal 105 = "105".
Proof. split; [eexists; split; reflexivity|]. repeat split. Qed.
