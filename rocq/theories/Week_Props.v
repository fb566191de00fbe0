(** Property theorems: C23. *)
From Verif Require Import PyBase PyStr PyDate Week_Model Week_Spec.
Local Open Scope string_scope.
Local Open Scope Z_scope.

Lemma week_start_exists s d : 0 <= s < 7 -> is_week_start s d (d - (weekday d - s) mod 7).
Proof.
  intros S. unfold is_week_start, weekday. split; [divs|]. split; [divs|]. intros y W Y. divs.
Qed.
Lemma week_start_unique s d x y : is_week_start s d x -> is_week_start s d y -> x = y.
Proof. intros [W1 [L1 M1]] [W2 [L2 M2]]. pose proof (M1 y W2 L2). pose proof (M2 x W1 L1). lia. Qed.
Lemma week_start_eq s d x : 0 <= s < 7 -> is_week_start s d x <-> x = d - (weekday d - s) mod 7.
Proof.
  intros S. split; [intros H; eapply week_start_unique; [exact H | apply week_start_exists; exact S] | intros ->; apply week_start_exists; exact S].
Qed.

Lemma day_midnight d : day (midnight d) = d.
Proof. unfold day, midnight, day_sec. apply Z.div_mul. lia. Qed.
Lemma day_plus t n : day (t + n * day_sec) = day t + n.
Proof. unfold day, day_sec. apply Z.div_add. lia. Qed.
Lemma midnight_plus d n : midnight d + n * day_sec = midnight (d + n).
Proof. unfold midnight, day_sec. lia. Qed.

Ltac each_in H := simpl in H; repeat match type of H with _ \/ _ => destruct H as [<-|H] | False => destruct H end.

Ltac each_start S := 
  let C := fresh "C" in let N := fresh "N" in destruct S as [C N]; 
  match type of C with 0 <= ?s < 7 => 
    assert (s = 0 \/ s = 1 \/ s = 2 \/ s = 3 \/ s = 4 \/ s = 5 \/ s = 6) as C' by lia; clear C;
    destruct C' as [C|[C|[C|[C|[C|[C|C]]]]]]; subst s; injection N as <- end.
Ltac sql_eval := cbn [eval]; change (is_bigquery _) with false; cbv iota; rewrite ?day_plus, ?day_midnight, ?day_plus, ?day_midnight, ?midnight_plus; cbv iota zeta.

Lemma week_sql_iso qt wsd s : In qt iso_warehouses -> start_day wsd s ->
  exists e, week_sql wsd qt = Ok e /\
    forall t, eval (is_bigquery qt) t e = midnight (monday_of (day t + (7 - s) mod 7) - (7 - s) mod 7).
Proof.
  intros Q S. each_start S; each_in Q; (eexists; split; [vm_compute; reflexivity|]; intros t; sql_eval; try reflexivity).
  all: cbn [Z.sub Z.modulo]; f_equal; rewrite ?Z.add_0_r, ?Z.sub_0_r; reflexivity.
Qed.
Lemma week_sql_bigquery wsd s : start_day wsd s ->
  exists e, week_sql wsd "BIGQUERY" = Ok e /\
    forall t, eval true t e = midnight (sunday_of (day t + (7 - s) mod 7) - (7 - s) mod 7).
Proof.
  intros S. each_start S; (eexists; split; [vm_compute; reflexivity|]; intros t; sql_eval; try reflexivity).
  all: cbn [Z.sub Z.modulo]; f_equal; rewrite ?Z.add_0_r, ?Z.sub_0_r; reflexivity.
Qed.
Lemma week_sql_server qt wsd s : In qt ["SQL_SERVER"; "AZURE_SYNAPSE"] -> start_day wsd s ->
  exists e, week_sql wsd qt = Ok e /\
    forall t, eval false t e = midnight (day_0 + 7 * (sundays (day t + (7 - s) mod 7) - sundays day_0) - (7 - s) mod 7).
Proof.
  intros Q S. each_start S; each_in Q; (eexists; split; [vm_compute; reflexivity|]; intros t; sql_eval; try reflexivity).
  all: cbn [Z.sub Z.modulo]; f_equal; rewrite ?Z.add_0_r, ?Z.sub_0_r; reflexivity.
Qed.
Lemma week_index_iso qt wsd s : In qt iso_warehouses -> start_day wsd s ->
  exists e, week_index_sql wsd qt = Ok e /\ forall t, eval (is_bigquery qt) t e = iso_week (day t + (7 - s) mod 7).
Proof.
  intros Q S. each_start S; each_in Q; (eexists; split; [vm_compute; reflexivity|]; intros t; sql_eval; try reflexivity).
  all: cbn [Z.sub Z.modulo]; f_equal; rewrite ?Z.add_0_r, ?Z.sub_0_r; reflexivity.
Qed.

(** For every instant and start day, the week expression is the latest start day on or before it *)
Theorem C23_week_start :
  forall qt wsd s, In qt iso_warehouses -> start_day wsd s ->
  exists e, week_sql wsd qt = Ok e /\
    forall t, exists x, eval (is_bigquery qt) t e = midnight x /\ is_week_start s (day t) x.
Proof.
  intros qt wsd s Q S. destruct (week_sql_iso qt wsd s Q S) as [e [E H]]. destruct S as [B _]. exists e. split; [exact E|].
  intros t. eexists. split; [apply H|]. apply week_start_eq; [exact B|]. unfold monday_of, weekday. clear - B. divs.
Qed.
Print Assumptions C23_week_start.
(** Thursday 2024-02-29 in a week starting on Sunday belongs to the week of 2024-02-25 *)
Example C23_week_start_case :
  start_day "sunday" 6 /\ is_week_start 6 (month_start (12 * 2024 + 1) + 28) (month_start (12 * 2024 + 1) + 24).
Proof. split; [split; [lia | reflexivity]|]. apply week_start_eq; [lia|]. vm_compute. reflexivity. Qed.

(** Weeks partition the days: two instants get the same week iff no start day lies between them *)
Theorem C23_weeks_partition :
  forall qt wsd s e, In qt iso_warehouses -> start_day wsd s -> week_sql wsd qt = Ok e ->
  forall t t', day t <= day t' ->
    (eval (is_bigquery qt) t e = eval (is_bigquery qt) t' e <-> forall y, weekday y = s -> day t < y -> day t' < y).
Proof.
  intros qt wsd s e Q S E t t' L. destruct (C23_week_start qt wsd s Q S) as [e' [E' H]].
  rewrite E in E'. injection E' as <-. destruct (H t) as [x [Ex [Wx [Lx Mx]]]]. destruct (H t') as [x' [Ex' [Wx' [Lx' Mx']]]].
  rewrite Ex, Ex'. assert (MI : midnight x = midnight x' <-> x = x') by (unfold midnight, day_sec; lia). rewrite MI. split.
  - intros <- y Wy Ly. destruct (Z_lt_le_dec (day t') y) as [C|C]; [exact C|]. pose proof (Mx' y Wy C). lia.
  - intros N. pose proof (Mx' x Wx ltac:(lia)). destruct (Z.eq_dec x x') as [C|C]; [exact C|].
    destruct (Z_le_gt_dec x' (day t)) as [D|D]; [pose proof (Mx x' Wx' D); lia|]. pose proof (N x' Wx' ltac:(lia)). lia.
Qed.
Print Assumptions C23_weeks_partition.

(** week_index / week_of_year agree on two instants of the same configured week *)
Theorem C23_week_index :
  forall qt wsd s, In qt iso_warehouses -> start_day wsd s ->
  exists e, week_index_sql wsd qt = Ok e /\
    forall t t' x, is_week_start s (day t) x -> is_week_start s (day t') x -> eval (is_bigquery qt) t e = eval (is_bigquery qt) t' e.
Proof.
  intros qt wsd s Q S. destruct (week_index_iso qt wsd s Q S) as [e [E H]]. destruct S as [B _]. exists e. split; [exact E|].
  intros t t' x X X'. apply week_start_eq in X; [|exact B]. apply week_start_eq in X'; [|exact B]. rewrite !H. unfold iso_week.
  replace (monday_of (day t + (7 - s) mod 7)) with (monday_of (day t' + (7 - s) mod 7)); [reflexivity|].
  unfold monday_of, weekday in *. clear - X X' B. divs.
Qed.
Print Assumptions C23_week_index.
(** The number is that of the ISO week of the shifted date: with weeks from Sunday, 2023-12-31 and
    2024-01-06 are both in week 1 *)
Example C23_week_index_case :
  let t := midnight (month_start (12 * 2023 + 11) + 30) in let t' := midnight (month_start (12 * 2024) + 5) in
  (exists x, is_week_start 6 (day t) x /\ is_week_start 6 (day t') x) /\
  (e <- week_index_sql "sunday" "SNOWFLAKE" ;; Ok (eval false t e)) = Ok 1.
Proof.
  split; [|vm_compute; reflexivity]. exists (month_start (12 * 2023 + 11) + 30). rewrite !week_start_eq by lia. split; vm_compute; reflexivity.
Qed.

(** *** bigquery truncates to Sunday: every week starts a day before the configured one *)
Theorem C23_bigquery_one_day_early :
  forall wsd s, start_day wsd s ->
  exists e, week_sql wsd "BIGQUERY" = Ok e /\
    forall t, exists x, eval true t e = midnight x /\ is_week_start ((s + 6) mod 7) (day t) x.
Proof.
  intros wsd s S. destruct (week_sql_bigquery wsd s S) as [e [E H]]. destruct S as [B _]. exists e. split; [exact E|].
  intros t. eexists. split; [apply H|]. apply week_start_eq; [clear - B; divs|]. unfold sunday_of, weekday. clear - B. divs.
Qed.
Print Assumptions C23_bigquery_one_day_early.
Theorem C23_bigquery_refuted :
  forall wsd s, start_day wsd s -> exists e, week_sql wsd "BIGQUERY" = Ok e /\
    forall t x, eval true t e = midnight x -> ~ is_week_start s (day t) x.
Proof.
  intros wsd s S. pose proof S as [B _]. destruct (C23_bigquery_one_day_early wsd s S) as [e [E H]]. exists e. split; [exact E|].
  intros t x X [W _]. destruct (H t) as [x' [X' [W' _]]]. assert (x = x') by (unfold midnight, day_sec in *; lia). subst x'.
  rewrite W in W'. clear - B W'. divs.
Qed.
Print Assumptions C23_bigquery_refuted.

(** *** SQL Server: DATEDIFF counts Sundays, so the last day of each week falls in the next one *)
Theorem C23_sql_server_exact :
  forall qt wsd s, In qt ["SQL_SERVER"; "AZURE_SYNAPSE"] -> start_day wsd s ->
  exists e, week_sql wsd qt = Ok e /\
    forall t, exists x, eval false t e = midnight x /\ is_week_start s (day t + 1) x.
Proof.
  intros qt wsd s Q S. destruct (week_sql_server qt wsd s Q S) as [e [E H]]. destruct S as [B _]. exists e. split; [exact E|].
  intros t. eexists. split; [apply H|]. apply week_start_eq; [exact B|].
  assert (D0 : exists k, day_0 = 7 * k + 2) by (exists (day_0 / 7); vm_compute; reflexivity). destruct D0 as [k ->].
  unfold sundays, weekday. clear - B. divs.
Qed.
Print Assumptions C23_sql_server_exact.
Theorem C23_sql_server_refuted :
  forall qt wsd s, In qt ["SQL_SERVER"; "AZURE_SYNAPSE"] -> start_day wsd s ->
  exists e, week_sql wsd qt = Ok e /\ forall t, weekday (day t + 1) = s -> eval false t e = midnight (day t + 1).
Proof.
  intros qt wsd s Q S. pose proof S as [B _]. destruct (C23_sql_server_exact qt wsd s Q S) as [e [E H]]. exists e. split; [exact E|].
  intros t W. destruct (H t) as [x [X I]]. apply week_start_eq in I; [|exact B]. rewrite X. f_equal. subst x. rewrite W. replace (s - s) with 0 by lia. change (0 mod 7) with 0. lia.
Qed.
Print Assumptions C23_sql_server_refuted.

(** *** bigquery's week number changes inside a week at New Year *)
Theorem C23_bigquery_week_index_refuted :
  exists e t t' x, week_index_sql "monday" "BIGQUERY" = Ok e /\
    is_week_start 0 (day t) x /\ is_week_start 0 (day t') x /\ eval true t e <> eval true t' e.
Proof.
  exists (DWeekNo (DTrunc UDay (DCastDate DCol))), (midnight (month_start (12 * 2024 + 11) + 30)), (midnight (month_start (12 * 2025))), (month_start (12 * 2024 + 11) + 29).
  split; [reflexivity|]. rewrite !week_start_eq by lia. split; [vm_compute; reflexivity|]. split; [vm_compute; reflexivity|]. vm_compute. discriminate.
Qed.
Print Assumptions C23_bigquery_week_index_refuted.
(** *** week_of_month ignores the configured start and is negative in the last days of a year *)
Theorem C23_week_of_month_refuted :
  eval false (midnight (month_start (12 * 2024 + 11) + 29)) week_of_month_sql = -46 /\
  (exists t t' x, is_week_start 6 (day t) x /\ is_week_start 6 (day t') x /\ month_of (day t) = month_of (day t') /\
     eval false t week_of_month_sql <> eval false t' week_of_month_sql).
Proof.
  split; [vm_compute; reflexivity|].
  exists (midnight (month_start (12 * 2024 + 5) + 8)), (midnight (month_start (12 * 2024 + 5) + 9)), (month_start (12 * 2024 + 5) + 8).
  rewrite !week_start_eq by lia. split; [vm_compute; reflexivity|]. split; [vm_compute; reflexivity|]. split; [vm_compute; reflexivity|]. vm_compute. discriminate.
Qed.
Print Assumptions C23_week_of_month_refuted.

(** Other warehouses and other start days are refused *)
Theorem C23_refused :
  forall wsd qt, (~ In qt (iso_warehouses ++ ["BIGQUERY"; "SQL_SERVER"; "AZURE_SYNAPSE"])%list -> In wsd day_names -> week_sql wsd qt = Err QueryError) /\
    (~ In wsd day_names -> week_sql wsd qt = Err KeyError).
Proof.
  intros wsd qt. split.
  - intros N I.
    assert (R : forall o, week_sql_date_trunc DCol o qt = Err QueryError).
    { intros o. unfold week_sql_date_trunc.
      destruct (mem qt ["SNOWFLAKE"; "REDSHIFT"]) eqn:A1; [apply mem_In in A1; exfalso; apply N; simpl in *; tauto|].
      destruct (mem qt q_interval) eqn:A2; [apply mem_In in A2; exfalso; apply N; simpl in *; tauto|].
      destruct (String.eqb_spec qt "BIGQUERY") as [->|A3]; [exfalso; apply N; simpl; tauto|].
      destruct (mem qt ["SQL_SERVER"; "AZURE_SYNAPSE"]) eqn:A4; [apply mem_In in A4; exfalso; apply N; simpl in *; tauto|]. reflexivity. }
    each_in I; unfold week_sql; simpl String.eqb; cbn [assoc offset_lookup]; simpl String.eqb; cbv iota; rewrite R; reflexivity.
  - intros N. unfold week_sql. destruct (String.eqb_spec wsd "monday") as [->|M]; [exfalso; apply N; simpl; tauto|].
    unfold offset_lookup. cbn [assoc].
    repeat match goal with |- context [String.eqb wsd ?d] => destruct (String.eqb_spec wsd d) as [->|]; [exfalso; apply N; simpl; tauto|] end.
    reflexivity.
Qed.
Print Assumptions C23_refused.

(** The week number is asked of the day moved forward by the days from the configured start to the next Monday, on every warehouse
    that has weeks; elsewhere it is refused *)
Theorem C23_week_index_of :
  forall qt wsd s, start_day wsd s ->
  (In qt (iso_warehouses ++ ["BIGQUERY"; "SQL_SERVER"; "AZURE_SYNAPSE"])%list ->
    exists a, week_index_sql wsd qt = Ok (DWeekNo a) /\ forall bq t, day (eval bq t a) = day t + (7 - s) mod 7) /\
  (~ In qt (iso_warehouses ++ ["BIGQUERY"; "SQL_SERVER"; "AZURE_SYNAPSE"])%list -> week_index_sql wsd qt = Err QueryError).
Proof.
  intros qt wsd s S. split.
  - intros Q. each_start S; each_in Q; (eexists; split; [vm_compute; reflexivity|]; intros bq t; cbn [eval]; rewrite ?day_plus, ?day_midnight, ?day_plus, ?day_midnight; cbn [Z.sub Z.modulo]; rewrite ?Z.add_0_r; reflexivity).
  - intros N. unfold week_index_sql, week_offset_only.
    destruct (mem qt ["SNOWFLAKE"; "REDSHIFT"]) eqn:A1; [apply mem_In in A1; exfalso; apply N; simpl in *; tauto|].
    destruct (mem qt q_interval) eqn:A2; [apply mem_In in A2; exfalso; apply N; simpl in *; tauto|].
    destruct (String.eqb_spec qt "BIGQUERY") as [->|A3]; [exfalso; apply N; simpl; tauto|].
    destruct (mem qt ["SQL_SERVER"; "AZURE_SYNAPSE"]) eqn:A4; [apply mem_In in A4; exfalso; apply N; simpl in *; tauto|]. reflexivity.
Qed.
Print Assumptions C23_week_index_of.
(** On BigQuery, and only there, the week is cast to the type of the column *)
Theorem C23_week_type : forall wsd qt e, week_sql wsd qt = Ok e -> (exists x, e = DCastTs x) <-> qt = "BIGQUERY".
Proof.
  intros wsd qt e E. unfold week_sql in E. apply bind_ok in E. destruct E as [w [W E]]. injection E as <-. destruct (String.eqb_spec qt "BIGQUERY") as [->|N]; [split; [reflexivity|eauto]|].
  split; [|congruence]. intros [x ->]. exfalso.
  assert (T : forall o y, week_sql_date_trunc DCol o qt <> Ok (DCastTs y)).
  { intros o y. unfold week_sql_date_trunc. destruct (mem qt ["SNOWFLAKE"; "REDSHIFT"]); [destruct o; discriminate|]. destruct (mem qt q_interval); [destruct o; discriminate|].
    apply String.eqb_neq in N. rewrite N. destruct (mem qt ["SQL_SERVER"; "AZURE_SYNAPSE"]); [destruct o; discriminate | discriminate]. }
  destruct (String.eqb wsd "monday"); [exact (T _ _ W)|]. destruct (assoc wsd offset_lookup); [|discriminate]. apply bind_ok in W. destruct W as [v [V W]].
  injection W as ->. exact (T _ _ V).
Qed.
Print Assumptions C23_week_type.
