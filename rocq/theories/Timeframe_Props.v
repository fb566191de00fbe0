(** C53: a timeframe of a time dimension means the same calendar period in every warehouse. *)
From Coq Require Import List String ZArith Bool Lia.
From Verif Require Import PyBase PyStr PyDate Timeframe_Model Timeframe_Spec.
Import ListNotations.
Local Open Scope string_scope.
Local Open Scope list_scope.
Local Open Scope Z_scope.

Ltac units := unfold SEC, MIN, HOUR, DAY, SEC, MIN, HOUR, SEC, MIN, SEC in *.
Lemma day_bounds z : z / DAY * DAY <= z < (z / DAY + 1) * DAY.
Proof. units; divs. Qed.
Lemma month_at_in z : month_at z (month_in z).
Proof.
  unfold month_at, month_in. pose proof (month_of_spec (z / DAY)) as M. pose proof (day_bounds z) as D. units; lia.
Qed.
Lemma month_at_unique z m : month_at z m -> month_in z = m.
Proof.
  unfold month_at, month_in. intros M. apply month_of_unique. pose proof (day_bounds z) as D. units; lia.
Qed.
Lemma before_year_month y : before_year y = month_start (12 * y).
Proof.
  destruct (div_mod_12 (12 * y)) as (a & k & E & K & _ & _). assert (k = 0 /\ a = y) as [-> ->] by lia.
  rewrite E, (month_start_eq y 0) by lia. cbn. lia.
Qed.
Lemma start_before z m : month_start m * DAY <= z <-> m <= month_in z.
Proof.
  pose proof (month_at_in z) as M. unfold month_at in M. split; intros H.
  - destruct (Z_le_gt_dec m (month_in z)) as [L|L]; [exact L|].
    pose proof (month_start_le (month_in z + 1) m). units; lia.
  - pose proof (month_start_le m (month_in z) H). units; lia.
Qed.
Lemma trunc_period p z : period p z (trunc p z).
Proof.
  destruct p; unfold period, trunc; cbn [starts].
  1-4: split; [eexists; reflexivity|split; [units; divs|intros y (k & ->) L; units; divs]].
  - split; [eexists; reflexivity|]. split; [apply start_before; lia|].
    intros y (m & ->) L. apply start_before in L. pose proof (month_start_le _ _ L). units; lia.
  - split; [eexists; reflexivity|]. split; [apply start_before; divs|].
    intros y (q & ->) L. apply start_before in L.
    pose proof (month_start_le (3 * q) (3 * (month_in z / 3)) ltac:(divs)). units; lia.
  - split; [exists (month_in z / 12); now rewrite before_year_month|]. split; [apply start_before; divs|].
    intros y (q & ->) L. rewrite before_year_month in *. apply start_before in L.
    pose proof (month_start_le (12 * q) (12 * (month_in z / 12)) ltac:(divs)). units; lia.
Qed.
Lemma epoch_month : month_of epoch1900 = 22800 /\ day_of epoch1900 = 0.
Proof. split; vm_compute; reflexivity. Qed.
Lemma add_epoch n : add_months epoch1900 n = month_start (22800 + n).
Proof.
  unfold add_months. destruct epoch_month as [E F]. rewrite E, F.
  pose proof (days_in_month_bounds (22800 + n)). lia.
Qed.
Lemma add_diff_trunc p z : dateadd p (datediff p z) = trunc p z.
Proof.
  destruct p; unfold dateadd, datediff, trunc; try rewrite add_epoch.
  - assert (E : epoch1900 * DAY = epoch1900 * DAY / SEC * SEC) by (vm_compute; reflexivity). rewrite E at 1. ring.
  - assert (E : epoch1900 * DAY = epoch1900 * DAY / MIN * MIN) by (vm_compute; reflexivity). rewrite E at 1. ring.
  - assert (E : epoch1900 * DAY = epoch1900 * DAY / HOUR * HOUR) by (vm_compute; reflexivity). rewrite E at 1. ring.
  - ring.
  - do 2 f_equal. lia.
  - do 2 f_equal. lia.
  - do 2 f_equal. lia.
Qed.
Lemma shift_month n z : month_in (shift n z) = month_in z + n.
Proof.
  unfold month_in, shift. rewrite <- month_of_add_months. f_equal. units; divs.
Qed.
Lemma shift_fiscal n z : fiscal_instant n z (shift n z).
Proof. exists (month_in z). split; [apply month_at_in|]. rewrite <- shift_month. apply month_at_in. Qed.

(** Each part a warehouse extracts *)
Lemma month_index_means b z : means (FMonthIndex b) z (VInt (month_in z mod 12 + 1)).
Proof.
  cbn [means a_number]. split; [divs|]. exists (month_in z / 12). replace (12 * (month_in z / 12) + (month_in z mod 12 + 1 - 1)) with (month_in z) by divs.
  apply month_at_in.
Qed.
Lemma quarter_means b z : means (FQuarterOfYear b) z (VInt (month_in z mod 12 / 3 + 1)).
Proof.
  cbn [means a_number]. split; [divs|]. exists (month_in z / 12). split.
  - apply start_before. divs.
  - apply Z.lt_nge. intros L. apply start_before in L. revert L. divs.
Qed.
Lemma hour_means z : means FHourOfDay z (VInt (z mod DAY / HOUR)).
Proof. cbn [means a_number]. split; [units; divs|]. exists (z / DAY). units; divs. Qed.
Lemma day_means z : means FDayOfMonth z (VInt (z / DAY - month_start (month_in z) + 1)).
Proof.
  cbn [means a_number]. pose proof (month_of_spec (z / DAY)). fold (month_in z) in *. split; [lia|].
  exists (month_in z). split; [apply month_at_in|]. pose proof (day_bounds z). units; lia.
Qed.
Lemma doy_means z : means FDayOfYear z (VInt (z / DAY - month_start (12 * (month_in z / 12)) + 1)).
Proof.
  cbn [means a_number]. pose proof (month_of_spec (z / DAY)) as M. fold (month_in z) in M.
  pose proof (month_start_le (12 * (month_in z / 12)) (month_in z) ltac:(divs)) as A.
  pose proof (month_start_le (month_in z + 1) (12 * (month_in z / 12 + 1)) ltac:(divs)) as B.
  split; [lia|]. exists (month_in z / 12). rewrite !before_year_month. split; [lia|]. pose proof (day_bounds z). units; lia.
Qed.
Lemma month_name_means z : means FMonthName z (VText (short (full_month (month_in z)))).
Proof. exists (month_in z). split; [apply month_at_in|reflexivity]. Qed.
Lemma day_name_means z : means FDayOfWeek z (VText (short (full_day (z / DAY)))).
Proof. exists (z / DAY). split; [apply day_bounds|reflexivity]. Qed.
Lemma druid_month z : match find (fun c => fst c =? month_in z mod 12 + 1) months with Some c => snd c | None => "Invalid Month" end
  = short (full_month (month_in z)).
Proof.
  unfold full_month. assert (B : 0 <= month_in z mod 12 < 12) by divs. generalize dependent (month_in z mod 12). intros k B.
  assert (k = 0 \/ k = 1 \/ k = 2 \/ k = 3 \/ k = 4 \/ k = 5 \/ k = 6 \/ k = 7 \/ k = 8 \/ k = 9 \/ k = 10 \/ k = 11) as C by lia.
  repeat (destruct C as [->|C]; [reflexivity|]). subst k. reflexivity.
Qed.
Lemma druid_day z : match find (fun c => fst c =? weekday (z / DAY) + 1) weekdays with Some c => snd c | None => "Invalid Day" end
  = short (full_day (z / DAY)).
Proof.
  unfold full_day. assert (B : 0 <= weekday (z / DAY) < 7) by (unfold weekday; apply Z.mod_pos_bound; lia).
  generalize dependent (weekday (z / DAY)). intros k B.
  assert (k = 0 \/ k = 1 \/ k = 2 \/ k = 3 \/ k = 4 \/ k = 5 \/ k = 6) as C by lia.
  repeat (destruct C as [->|C]; [reflexivity|]). subst k. reflexivity.
Qed.

(** ** The instants *)
Definition supported (qt : string) : Prop :=
  In qt ["SNOWFLAKE"; "REDSHIFT"; "DATABRICKS"; "POSTGRES"; "DUCK_DB"; "TRINO"; "DRUID"; "SQL_SERVER"; "AZURE_SYNAPSE"; "BIGQUERY"].
(** the instants a column of the type holds *)
Definition column (dt : datatype) (z : Z) : Prop := dt = DateType -> exists d, z = d * DAY.
Definition ignores_zone (qt : string) : bool := mem qt ["DRUID"; "SQL_SERVER"; "AZURE_SYNAPSE"].
(** what the project's zone makes of an instant, in the column's own type *)
Definition seen (local : Z -> Z) (dt : datatype) (zone : bool) (z z1 : Z) : Prop :=
  if zone then match dt with DateType => period Day (local z) z1 | _ => z1 = local z end else z1 = z.
(** The timeframes a warehouse does not have, or gives another text for; each is shown below to fail *)
Definition no_month_index (f : frame) : bool := match f with FMonthIndex _ => true | _ => false end.
Definition in_names (f : frame) : bool := match f with FMonthName | FDayOfWeek => true | _ => false end.
Definition works (qt : string) (dt : datatype) (zone : bool) (o : Z) (f : frame) (z : Z) : Prop :=
  (zone = true -> ignores_zone qt = false)
  /\ (tsql qt = true -> no_month_index f = false /\ f <> FSecond /\ before_year 1753 * DAY <= z < before_year 5900 * DAY /\ -12 <= o <= 12)
  /\ (qt = "BIGQUERY" -> in_names f = false /\ (f = FHourOfDay -> dt <> DateType) /\ (is_fiscal f = true -> o <> 0 -> dt <> Timestamp))
  /\ (qt = "DUCK_DB" -> in_names f = false).

Lemma floor_month z : month_in (z / DAY * DAY) = month_in z.
Proof. unfold month_in. f_equal. units; divs. Qed.
Lemma floor_day z : z / DAY * DAY / DAY = z / DAY.
Proof. units; divs. Qed.
Lemma column_floor z : column DateType z -> z / DAY * DAY = z.
Proof. intros C. destruct (C eq_refl) as (d & ->). units; divs. Qed.
Lemma trunc_floor p z : match p with Second | Minute | Hour => False | _ => True end -> trunc p (z / DAY * DAY) = trunc p z.
Proof. destruct p; intros H; try destruct H; unfold trunc; rewrite ?floor_month, ?floor_day; reflexivity. Qed.
Lemma trunc_aligned p z : match p with Second | Minute | Hour => False | _ => True end -> trunc p z / DAY * DAY = trunc p z.
Proof. destruct p; intros H; try destruct H; unfold trunc; rewrite Z.div_mul by (units; lia); reflexivity. Qed.
Lemma trunc_column p z : match p with Second | Minute | Hour => True | _ => False end -> column DateType z -> trunc p z = z.
Proof. intros H C. destruct (C eq_refl) as (d & ->). destruct p; try destruct H; unfold trunc; units; divs. Qed.
Lemma period_floor p z : match p with Second | Minute | Hour => False | _ => True end -> period p z (trunc p (z / DAY * DAY)).
Proof. intros H. rewrite trunc_floor by exact H. apply trunc_period. Qed.

Section Tables.
Variable local : Z -> Z.
Variable qt : string.
Variable v : val.
Variable s : texpr.
Variable dt : datatype.
Variable z : Z.
Hypothesis HS : eval local qt s v = Ok (VTime dt z).
Hypothesis HC : column dt z.
Local Arguments trunc : simpl never.
Local Arguments extract : simpl never.
Local Arguments full_month : simpl never.
Local Arguments full_day : simpl never.
Local Arguments short : simpl never.
Local Arguments shift : simpl never.
Local Arguments datediff : simpl never.
Local Arguments dateadd : simpl never.
Local Arguments int32 : simpl never.
Local Arguments Z.div : simpl never.
Local Arguments Z.modulo : simpl never.
Local Arguments Z.mul : simpl never.
Local Arguments means : simpl never.
Lemma ts_eval : eval local qt (ts s) v = Ok (VTime Timestamp z).
Proof. unfold ts. cbn. rewrite HS. reflexivity. Qed.
Ltac fin :=
  first [ apply month_name_means | apply day_name_means | apply month_index_means | apply quarter_means | apply hour_means | apply day_means | apply doy_means
        | (unfold means, at_time; apply trunc_period) | reflexivity ].
Ltac tab Q := rewrite Q in *; eexists; split; [cbn; rewrite ?HS; cbn; reflexivity|fin].
Lemma snowflake_means f : qt = "SNOWFLAKE" \/ qt = "REDSHIFT" -> exists x, eval local qt (snowflake f s) v = Ok x /\ means f z x.
Proof. intros [Q|Q]; destruct f; tab Q. Qed.
Lemma databricks_means f : qt = "DATABRICKS" -> exists x, eval local qt (databricks f s) v = Ok x /\ means f z x.
Proof. intros Q; destruct f; tab Q. Qed.
Lemma postgres_means f : qt = "POSTGRES" \/ qt = "DUCK_DB" /\ in_names f = false -> exists x, eval local qt (postgres f s) v = Ok x /\ means f z x.
Proof. intros [Q|[Q N]]; destruct f; try discriminate N; tab Q. Qed.
Lemma trino_means f : qt = "TRINO" -> exists x, eval local qt (trino f s) v = Ok x /\ means f z x.
Proof. intros Q; destruct f; tab Q. Qed.
Lemma druid_means f : qt = "DRUID" -> exists x, eval local qt (druid f s) v = Ok x /\ means f z x.
Proof.
  intros Q; destruct f.
  all: match goal with |- context [FMonthName] => idtac | |- context [FDayOfWeek] => idtac | _ => tab Q end.
  - exists (VText (short (full_month (month_in z)))). split; [|fin].
    rewrite <- druid_month, Q. cbn [druid eval]. rewrite <- Q, ts_eval, Q. reflexivity.
  - exists (VText (short (full_day (z / DAY)))). split; [|fin].
    rewrite <- druid_day, Q. cbn [druid eval]. rewrite <- Q, ts_eval, Q. reflexivity.
Qed.
(** T-SQL: the whole periods since 1900 fit an int *)
Lemma date_eval : eval local qt (XCast s "DATE") v = Ok (VTime DateType (z / DAY * DAY)).
Proof. cbn. rewrite HS. reflexivity. Qed.
Lemma datetime_eval : eval local qt (XCast s "DATETIME") v = Ok (VTime Datetime z).
Proof. cbn. rewrite HS. reflexivity. Qed.
Lemma int32_months : (12 * 1752 <= month_in z <= 12 * 5901) ->
  int32 (datediff Month z) = true /\ int32 (datediff Quarter z) = true /\ int32 (datediff Year z) = true.
Proof.
  intros B. unfold int32, datediff. repeat split; apply andb_true_intro; split; apply Z.leb_le; divs.
Qed.
Lemma floor_diff p : match p with Second | Minute | Hour => False | _ => True end -> datediff p (z / DAY * DAY) = datediff p z.
Proof. destruct p; intros H; try destruct H; unfold datediff; rewrite ?floor_month, ?floor_day; reflexivity. Qed.
Lemma sql_server_means f : tsql qt = true -> no_month_index f = false -> f <> FSecond -> 12 * 1752 <= month_in z <= 12 * 5901 ->
  (f = FMinute \/ f = FHour -> before_year 1753 * DAY <= z < before_year 5900 * DAY) ->
  exists x, eval local qt (sql_server f s) v = Ok x /\ means f z x.
Proof.
  intros Q N NS BM B. destruct (int32_months BM) as (IM & IQ & IY).
  assert (QQ : qt = "SQL_SERVER" \/ qt = "AZURE_SYNAPSE").
  { unfold tsql in Q. apply mem_In in Q. destruct Q as [<-|[<-|[]]]; auto. }
  assert (NB : String.eqb qt "BIGQUERY" = false) by (destruct QQ as [-> | ->]; reflexivity).
  assert (NM : mem qt ["POSTGRES"; "DUCK_DB"] = false) by (destruct QQ as [-> | ->]; reflexivity).
  destruct f; try discriminate N; try (exfalso; apply NS; reflexivity); cbn [sql_server].
  - exists (VTime dt z). split; [exact HS|reflexivity].
  - exists (VTime Datetime z). split; [apply datetime_eval|reflexivity].
  - exists (VTime Datetime (trunc Minute z)). split; [|unfold means, at_time; apply trunc_period].
    cbn [eval]. rewrite Q.
    pose proof datetime_eval as D. cbn [eval] in D. rewrite D. cbn [bind as_time].
    replace (int32 (datediff Minute z)) with true. now rewrite add_diff_trunc.
    symmetry. specialize (B (or_introl eq_refl)). clear - B. unfold int32, datediff. apply andb_true_intro.
    change (before_year 1753) with 640271 in B. change (before_year 5900) with 2154931 in B. change (epoch1900 * DAY / MIN) with 999303840.
    split; apply Z.leb_le; units; divs.
  - exists (VTime Datetime (trunc Hour z)). split; [|unfold means, at_time; apply trunc_period].
    cbn [eval]. rewrite Q. pose proof datetime_eval as D. cbn [eval] in D. rewrite D. cbn [bind as_time].
    replace (int32 (datediff Hour z)) with true. now rewrite add_diff_trunc.
    symmetry. specialize (B (or_intror eq_refl)). clear - B. unfold int32, datediff. apply andb_true_intro.
    change (before_year 1753) with 640271 in B. change (before_year 5900) with 2154931 in B. change (epoch1900 * DAY / HOUR) with 16655064.
    split; apply Z.leb_le; units; divs.
  - exists (VTime Datetime (trunc Day z)). split; [|unfold means, at_time; apply trunc_period].
    cbn. rewrite HS. reflexivity.
  - exists (VTime Datetime (trunc Month z)). split; [|unfold means, at_time; apply trunc_period].
    pose proof date_eval as D. cbn [eval] in *. rewrite Q, D. cbn [bind as_time]. rewrite floor_diff by exact I. rewrite IM. now rewrite add_diff_trunc.
  - exists (VTime Datetime (trunc Quarter z)). split; [|unfold means, at_time; apply trunc_period].
    pose proof date_eval as D. cbn [eval] in *. rewrite Q, D. cbn [bind as_time]. rewrite floor_diff by exact I. rewrite IQ. now rewrite add_diff_trunc.
  - exists (VTime Datetime (trunc Year z)). split; [|unfold means, at_time; apply trunc_period].
    pose proof date_eval as D. cbn [eval] in *. rewrite Q, D. cbn [bind as_time]. rewrite floor_diff by exact I. rewrite IY. now rewrite add_diff_trunc.
  - eexists. split; [|apply month_name_means]. pose proof date_eval as D. cbn [eval] in *. rewrite Q, D. cbn. now rewrite floor_month.
  - eexists. split; [|apply quarter_means]. pose proof date_eval as D. cbn [eval] in *. rewrite Q, D. cbn. unfold extract. rewrite floor_day, NM. reflexivity.
  - eexists. split; [|apply hour_means]. pose proof datetime_eval as D. cbn [eval] in *. rewrite Q, D. cbn. unfold extract. rewrite NM. reflexivity.
  - eexists. split; [|apply day_name_means]. pose proof date_eval as D. cbn [eval] in *. rewrite Q, D. cbn. now rewrite floor_day.
  - eexists. split; [|apply day_means]. pose proof date_eval as D. cbn [eval] in *. rewrite Q, D. cbn. unfold extract. rewrite floor_day, NM. reflexivity.
  - eexists. split; [|apply doy_means]. pose proof date_eval as D. cbn [eval] in *. rewrite Q, D. cbn. unfold extract. rewrite floor_day.
    rewrite NB, NM. reflexivity.
Qed.
Lemma bigquery_means f : qt = "BIGQUERY" -> in_names f = false -> (f = FHourOfDay -> dt <> DateType) ->
  exists x, eval local qt (bigquery dt f s) v = Ok x /\ means f z x.
Proof.
  intros Q N H.
  assert (T : forall p, match p with Second | Minute | Hour => True | _ => False end ->
    exists x, eval local qt (XCast (XDatetimeTrunc (XCast s "DATETIME") p) (type_name dt)) v = Ok x /\ at_time x (period p z)).
  { intros p P. exists (VTime dt (trunc p z)). split; [|apply trunc_period].
    destruct dt; cbn; rewrite Q; cbn; rewrite <- Q, HS; cbn; try reflexivity.
    rewrite (trunc_column p z P HC), column_floor by exact HC. reflexivity. }
  assert (D : forall p, match p with Second | Minute | Hour => False | _ => True end ->
    exists x, eval local qt (XCast (XDateTrunc (XCast s "DATE") p) (type_name dt)) v = Ok x /\ at_time x (period p z)).
  { intros p P. exists (VTime dt (trunc p z)). split; [|apply trunc_period].
    destruct dt; cbn; rewrite Q; cbn; rewrite <- Q, HS; cbn; rewrite ?trunc_floor, ?trunc_aligned by exact P; reflexivity. }
  destruct f; try discriminate N; cbn [bigquery]; try (apply T; exact I); try (apply D; exact I).
  - exists (VTime dt z). split; [exact HS|reflexivity].
  - exists (VTime Timestamp z). split; [apply ts_eval|reflexivity].
  - tab Q.
  - tab Q.
  - exists (VInt (z mod DAY / HOUR)). split; [|apply hour_means]. cbn. rewrite Q. cbn. rewrite <- Q, HS. cbn.
    destruct dt; try reflexivity. exfalso. now apply H.
  - tab Q.
  - tab Q.
Qed.
End Tables.

(** ** The main theorem *)
Lemma seen_column local dt zone z z1 : column dt z -> seen local dt zone z z1 -> column dt z1.
Proof.
  unfold seen. destruct zone; [|now intros C ->]. destruct dt; intros C S; try (intros X; discriminate X).
  intros _. destruct S as ((k & ->) & _). now exists k.
Qed.
Lemma apply_timezone_eval local dt qt z : supported qt -> ignores_zone qt = false ->
  exists e, apply_timezone dt XCol qt = Ok e
    /\ exists z1, seen local dt true z z1 /\ eval local qt e (VTime dt z) = Ok (VTime dt z1).
Proof.
  intros U N.
  assert (P : seen local dt true z (match dt with DateType => local z / DAY * DAY | _ => local z end))
    by (destruct dt; try reflexivity; exact (trunc_period Day (local z))).
  unfold supported in U. cbn [In] in U. repeat (destruct U as [<-|U]; [try discriminate N|]); [..|destruct U].
  all: eexists; split; [reflexivity|]; eexists; split; [exact P|]; destruct dt; reflexivity.
Qed.
Theorem C53_timeframes_partial : forall local qt dt zone o name f z,
  supported qt -> assoc name frames = Some f -> column dt z -> works qt dt zone o f z ->
  exists e v z1 z2,
    time_sql dt zone o qt name = Ok e /\ eval local qt e (VTime dt z) = Ok v
    /\ seen local dt zone z z1
    /\ (if is_fiscal f then fiscal_instant o z1 z2 else z2 = z1)
    /\ means f z2 v.
Proof.
  intros local qt dt zone o name f z U A C (WZ & WT & WB & WD).
  assert (HS : exists s, (if zone then apply_timezone dt XCol qt else Ok XCol) = Ok s
    /\ exists z1, seen local dt zone z z1 /\ eval local qt s (VTime dt z) = Ok (VTime dt z1)).
  { destruct zone; [apply apply_timezone_eval; auto|]. exists XCol. split; [reflexivity|]. exists z. split; reflexivity. }
  destruct HS as (s & ES & z1 & SN & EV). pose proof (seen_column _ _ _ _ _ C SN) as C1.
  assert (HF : exists s2, (if is_fiscal f then fiscal o s qt else Ok s) = Ok s2
    /\ exists z2, (if is_fiscal f then z2 = shift o z1 else z2 = z1) /\ eval local qt s2 (VTime dt z) = Ok (VTime dt z2)).
  { destruct (is_fiscal f) eqn:F; [|exists s; split; [reflexivity|]; exists z1; split; [reflexivity|exact EV]].
    unfold fiscal. destruct (Z.eqb_spec o 0) as [->|NO].
    - exists s. split; [reflexivity|]. exists z1. split; [|exact EV]. unfold shift, add_months.
      rewrite Z.add_0_r. pose proof (month_of_spec (z1 / DAY)). unfold day_of, days_in_month. rewrite Z.min_l by lia.
      replace (month_start (month_of (z1 / DAY)) + (z1 / DAY - month_start (month_of (z1 / DAY)))) with (z1 / DAY) by lia. units; divs.
    - assert (BQ : qt = "BIGQUERY" -> dt <> Timestamp) by (intros ->; now apply WB).
      clear WT WB WD WZ A ES. unfold supported in U. cbn [In] in U.
      repeat (destruct U as [<-|U]; [eexists; split; [reflexivity|]; exists (shift o z1); split; [reflexivity|]; cbn [eval]; rewrite EV; try reflexivity|]); [|destruct U].
      destruct dt; try reflexivity. exfalso. now apply BQ. }
  destruct HF as (s2 & EF & z2 & FI & EV2).
  assert (C2 : column dt z2).
  { destruct (is_fiscal f); subst z2; [|exact C1]. intros D. destruct (C1 D) as (k & ->). unfold shift.
    exists (add_months k o). rewrite Z.div_mul, Z_mod_mult by (units; lia). lia. }
  assert (E : exists t, table qt dt = Some t /\ exists x, eval local qt (t f s2) (VTime dt z) = Ok x /\ means f z2 x).
  { unfold supported in U. cbn [In] in U.
    destruct U as [<-|[<-|[<-|[<-|[<-|[<-|[<-|[<-|[<-|[<-|[]]]]]]]]]]]; (eexists; split; [reflexivity|]); cbn beta.
    - eapply snowflake_means; eauto.
    - eapply snowflake_means; eauto.
    - eapply databricks_means; eauto.
    - eapply postgres_means; eauto.
    - eapply postgres_means; eauto.
    - eapply trino_means; eauto.
    - eapply druid_means; eauto.
    - assert (zone = false) as -> by (destruct zone; [discriminate (WZ eq_refl)|reflexivity]). cbn in SN. subst z1.
      destruct (WT eq_refl) as (W1 & W2 & W3 & W4).
      assert (M : 12 * 1753 <= month_in z < 12 * 5900).
      { rewrite !before_year_month in W3. destruct W3 as [L R]. apply start_before in L.
        split; [exact L|]. apply Z.lt_nge. intros X. apply start_before in X. lia. }
      eapply sql_server_means; eauto.
      + destruct (is_fiscal f); subst z2; rewrite ?shift_month; lia.
      + intros X. assert (is_fiscal f = false) as Y by (destruct X as [-> | ->]; reflexivity). rewrite Y in FI. now subst z2.
    - assert (zone = false) as -> by (destruct zone; [discriminate (WZ eq_refl)|reflexivity]). cbn in SN. subst z1.
      destruct (WT eq_refl) as (W1 & W2 & W3 & W4).
      assert (M : 12 * 1753 <= month_in z < 12 * 5900).
      { rewrite !before_year_month in W3. destruct W3 as [L R]. apply start_before in L.
        split; [exact L|]. apply Z.lt_nge. intros X. apply start_before in X. lia. }
      eapply sql_server_means; eauto.
      + destruct (is_fiscal f); subst z2; rewrite ?shift_month; lia.
      + intros X. assert (is_fiscal f = false) as Y by (destruct X as [-> | ->]; reflexivity). rewrite Y in FI. now subst z2.
    - destruct (WB eq_refl) as (W1 & W2 & _). eapply bigquery_means; eauto. }
  destruct E as (t & ET & x & EX & MX).
  exists (t f s2), x, z1, z2. split; [unfold time_sql; rewrite ES; cbn [bind]; rewrite ET, A, EF; reflexivity|].
  split; [exact EX|]. split; [exact SN|]. split; [|exact MX].
  destruct (is_fiscal f); subst z2; [apply shift_fiscal|reflexivity].
Qed.
Print Assumptions C53_timeframes_partial.

(** The hypotheses hold: in a project of a zone 5 hours behind, 2024-03-01 03:30 UTC is in February; the fiscal year of offset 2 *)
Example C53_timeframes_case :
  let z := (before_year 2024 + 60) * DAY + 3 * HOUR + 30 * MIN in
  let local z := z - 5 * HOUR in
  works "SNOWFLAKE" Timestamp true 0 (FMonth false) z
  /\ time_sql Timestamp true 0 "SNOWFLAKE" "month" = Ok (XTrunc Month (XCast (XCast (XConvert XCol) "TIMESTAMP_NTZ") "TIMESTAMP"))
  /\ eval local "SNOWFLAKE" (XTrunc Month (XCast (XCast (XConvert XCol) "TIMESTAMP_NTZ") "TIMESTAMP")) (VTime Timestamp z)
     = Ok (VTime Timestamp (month_start (12 * 2024 + 1) * DAY))
  /\ works "SQL_SERVER" Datetime false (-10) (FYear true) z
  /\ (e <- time_sql Datetime false (-10) "SQL_SERVER" "fiscal_year" ;; eval local "SQL_SERVER" e (VTime Datetime z)) = Ok (VTime Datetime (before_year 2023 * DAY))
  /\ render "America/New_York" "orders.created_at" (XTrunc Month (XCast (XCast (XConvert XCol) "TIMESTAMP_NTZ") "TIMESTAMP"))
     = "DATE_TRUNC('MONTH', CAST(CAST(CONVERT_TIMEZONE('America/New_York', orders.created_at) AS TIMESTAMP_NTZ) AS TIMESTAMP))".
Proof.
  cbv zeta. repeat split; try discriminate; try reflexivity.
Qed.

(** ** The same value in every warehouse *)
Definition same_value (a b : val) : Prop :=
  match a, b with VTime _ x, VTime _ y => x = y | VInt x, VInt y => x = y | VText x, VText y => x = y | _, _ => False end.
Lemma period_trunc p z x : period p z x -> x = trunc p z.
Proof.
  intros (A & B & C). destruct (trunc_period p z) as (A' & B' & C'). pose proof (C _ A' B'). pose proof (C' _ A B). lia.
Qed.
Lemma month_index_of z n y : 1 <= n <= 12 -> month_at z (12 * y + (n - 1)) -> n = month_in z mod 12 + 1.
Proof. intros B M. apply month_at_unique in M. rewrite M. divs. Qed.
Lemma quarter_of z n y : 1 <= n <= 4 -> month_start (12 * y + 3 * (n - 1)) * DAY <= z < month_start (12 * y + 3 * n) * DAY -> n = month_in z mod 12 / 3 + 1.
Proof.
  intros B [L R]. apply start_before in L. assert (month_in z < 12 * y + 3 * n) as R'.
  { apply Z.lt_nge. intros X. apply start_before in X. lia. }
  divs.
Qed.
Lemma means_unique f z z' a b : (if is_fiscal f then month_in z = month_in z' else z = z') -> means f z a -> means f z' b -> same_value a b.
Proof.
  intros E A B.
  assert (P : forall p, (if is_fiscal f then match p with Month | Quarter | Year => True | _ => False end else True) -> trunc p z = trunc p z').
  { intros p P. destruct (is_fiscal f); [|now subst]. destruct p; try destruct P; unfold trunc; now rewrite E. }
  destruct a, b; destruct f; try (now destruct A); try (now destruct B); cbn [means at_time a_number a_text same_value] in *.
  all: try (apply period_trunc in A; apply period_trunc in B; subst; apply P; cbn [is_fiscal]; try (match goal with |- context [if ?b then _ else _] => destruct b end); exact I).
  1-2: cbn in E; congruence.
  - destruct A as (A1 & y & A2), B as (B1 & y' & B2). apply month_index_of in A2, B2; auto. cbn in E; match type of E with if ?b then _ else _ => destruct b end; congruence.
  - destruct A as (A1 & y & A2), B as (B1 & y' & B2). apply quarter_of in A2, B2; auto. cbn in E; match type of E with if ?b then _ else _ => destruct b end; congruence.
  - cbn in E. subst z'. destruct A as (A1 & y & A2), B as (B1 & y' & B2). units; lia.
  - cbn in E. subst z'. destruct A as (A1 & y & A2 & A3), B as (B1 & y' & B2 & B3).
    apply month_at_unique in A2, B2. subst y y'. units; lia.
  - cbn in E. subst z'. destruct A as (A1 & y & A2 & A3), B as (B1 & y' & B2 & B3).
    rewrite !before_year_month in *.
    assert (y = y') as ->.
    { destruct (Z_lt_ge_dec y y') as [L|L].
      - pose proof (month_start_le (12 * (y + 1)) (12 * y') ltac:(lia)). units; lia.
      - destruct (Z_lt_ge_dec y' y) as [L'|L']; [|lia].
        pose proof (month_start_le (12 * (y' + 1)) (12 * y) ltac:(lia)). units; lia. }
    units; lia.
  - cbn in E. subst z'. destruct A as (m & A1 & ->), B as (m' & B1 & ->). apply month_at_unique in A1, B1. now subst.
  - cbn in E. subst z'. destruct A as (d & A1 & ->), B as (d' & B1 & ->). replace d' with d; [reflexivity|]. units; lia.
Qed.
Theorem C53_same_everywhere_partial : forall local qt qt' dt zone o name f z e e' v v',
  supported qt -> supported qt' -> assoc name frames = Some f -> column dt z ->
  works qt dt zone o f z -> works qt' dt zone o f z ->
  time_sql dt zone o qt name = Ok e -> time_sql dt zone o qt' name = Ok e' ->
  eval local qt e (VTime dt z) = Ok v -> eval local qt' e' (VTime dt z) = Ok v' -> same_value v v'.
Proof.
  intros local qt qt' dt zone o name f z e e' v v' U U' A C W W' T T' E E'.
  destruct (C53_timeframes_partial local qt dt zone o name f z U A C W) as (e1 & v1 & z1 & z2 & T1 & E1 & S1 & F1 & M1).
  destruct (C53_timeframes_partial local qt' dt zone o name f z U' A C W') as (e3 & v3 & z3 & z4 & T3 & E3 & S3 & F3 & M3).
  assert (e1 = e) as -> by congruence. assert (e3 = e') as -> by congruence.
  assert (v1 = v) as -> by congruence. assert (v3 = v') as -> by congruence.
  assert (z1 = z3) as <-.
  { unfold seen in *. destruct zone; [|congruence]. destruct dt; try congruence. apply period_trunc in S1, S3. congruence. }
  apply (means_unique f z2 z4); auto. destruct (is_fiscal f); [|congruence].
  destruct F1 as (m & P1 & P2), F3 as (m' & P3 & P4). apply month_at_unique in P1, P2, P3, P4. congruence.
Qed.
Print Assumptions C53_same_everywhere_partial.
Example C53_same_everywhere_case :
  let z := (before_year 2024 + 60) * DAY + 3 * HOUR in
  works "SNOWFLAKE" Datetime false 2 (FQuarterOfYear true) z /\ works "BIGQUERY" Datetime false 2 (FQuarterOfYear true) z
  /\ (e <- time_sql Datetime false 2 "SNOWFLAKE" "fiscal_quarter_of_year" ;; eval (fun z => z) "SNOWFLAKE" e (VTime Datetime z)) = Ok (VInt 2)
  /\ (e <- time_sql Datetime false 2 "BIGQUERY" "fiscal_quarter_of_year" ;; eval (fun z => z) "BIGQUERY" e (VTime Datetime z)) = Ok (VInt 2).
Proof. cbv zeta. repeat split; try discriminate; try reflexivity. Qed.

(** ** Where the code departs: each case excluded by [works], for every instant *)
Lemma tsql_cases qt : tsql qt = true -> qt = "SQL_SERVER" \/ qt = "AZURE_SYNAPSE".
Proof. intros Q. unfold tsql in Q. apply mem_In in Q. destruct Q as [<-|[<-|[]]]; auto. Qed.
(** EXTRACT is not T-SQL *)
Theorem C53_month_index_refuted : forall local qt dt o name f z,
  tsql qt = true -> assoc name frames = Some f -> no_month_index f = true ->
  exists e, time_sql dt false o qt name = Ok e /\ eval local qt e (VTime dt z) = Err QueryError.
Proof.
  intros local qt dt o name f z Q A N. unfold time_sql. cbn [bind]. rewrite A.
  destruct f; try discriminate N. destruct (tsql_cases _ Q) as [-> | ->]; cbn [is_fiscal].
  all: match goal with |- context [FMonthIndex ?b] => destruct b end; [unfold fiscal; destruct (o =? 0)|]; (eexists; split; [reflexivity|reflexivity]).
Qed.
Print Assumptions C53_month_index_refuted.
Lemma month_index_names : exists f, assoc "month_of_year_index" frames = Some f /\ no_month_index f = true.
Proof. now exists (FMonthIndex false). Qed.
(** DATEDIFF in seconds since 1900 overflows from 1968-01-21 on *)
Theorem C53_second_refuted : forall local qt z,
  tsql qt = true -> (month_start (12 * 1968) + 20) * DAY <= z ->
  exists e, time_sql Datetime false 0 qt "second" = Ok e /\ eval local qt e (VTime Datetime z) = Err ValueError.
Proof.
  intros local qt z Q B. exists (XAddDiff Second (XCast XCol "DATETIME")).
  split; [destruct (tsql_cases _ Q) as [-> | ->]; reflexivity|].
  change (eval local qt (XAddDiff Second (XCast XCol "DATETIME")) (VTime Datetime z)) with
    (if tsql qt then if int32 (datediff Second z) then Ok (VTime Datetime (dateadd Second (datediff Second z))) else Err ValueError else Err QueryError).
  rewrite Q. replace (int32 (datediff Second z)) with false; [reflexivity|]. symmetry.
  unfold int32, datediff. apply andb_false_iff. right. apply Z.leb_gt.
  change (month_start (12 * 1968)) with 718797 in B. change (epoch1900 * DAY / SEC) with 59958230400. units; divs.
Qed.
Print Assumptions C53_second_refuted.
(** BigQuery writes the full names *)
Theorem C53_bigquery_names_refuted : forall local dt z,
  (exists e, time_sql dt false 0 "BIGQUERY" "month_of_year" = Ok e
     /\ eval local "BIGQUERY" e (VTime dt z) = Ok (VText (full_month (month_in z))))
  /\ (exists e, time_sql dt false 0 "BIGQUERY" "day_of_week" = Ok e
     /\ exists s, eval local "BIGQUERY" e (VTime dt z) = Ok (VText s) /\ s <> short (full_day (z / DAY))).
Proof.
  intros local dt z. split.
  - exists (XFormatFirst "%B" (XCast XCol "DATETIME")). split; reflexivity.
  - exists (XCastFormat XCol "DAY"). split; [reflexivity|]. exists (upper_day (z / DAY)). split; [reflexivity|].
    unfold upper_day, full_day. assert (B : 0 <= weekday (z / DAY) < 7) by (unfold weekday; apply Z.mod_pos_bound; lia).
    generalize dependent (weekday (z / DAY)). intros k B.
    assert (k = 0 \/ k = 1 \/ k = 2 \/ k = 3 \/ k = 4 \/ k = 5 \/ k = 6) as C by lia.
    repeat (destruct C as [->|C]; [discriminate|]). subst k. discriminate.
Qed.
Print Assumptions C53_bigquery_names_refuted.
Lemma full_is_not_short m : m mod 12 <> 4 -> full_month m <> short (full_month m).
Proof.
  unfold full_month. intros N. assert (B : 0 <= m mod 12 < 12) by (apply Z.mod_pos_bound; lia). generalize dependent (m mod 12). intros k N B.
  assert (k = 0 \/ k = 1 \/ k = 2 \/ k = 3 \/ k = 4 \/ k = 5 \/ k = 6 \/ k = 7 \/ k = 8 \/ k = 9 \/ k = 10 \/ k = 11) as C by lia.
  repeat (destruct C as [->|C]; [(discriminate || (exfalso; lia))|]). subst k. discriminate.
Qed.
(** DuckDB has no TO_CHAR *)
Theorem C53_duckdb_names_refuted : forall local dt z name, In name ["month_of_year"; "month_name"; "day_of_week"] ->
  exists e, time_sql dt false 0 "DUCK_DB" name = Ok e /\ eval local "DUCK_DB" e (VTime dt z) = Err QueryError.
Proof. intros local dt z name [<-|[<-|[<-|[]]]]; (eexists; split; [reflexivity|reflexivity]). Qed.
Print Assumptions C53_duckdb_names_refuted.
(** BigQuery does not add months to a TIMESTAMP, the default datatype *)
Theorem C53_bigquery_fiscal_refuted : forall local o name f z,
  o <> 0 -> assoc name frames = Some f -> is_fiscal f = true ->
  exists e, time_sql Timestamp false o "BIGQUERY" name = Ok e /\ eval local "BIGQUERY" e (VTime Timestamp z) = Err TypeError.
Proof.
  intros local o name f z O A F. unfold time_sql. cbn [bind]. rewrite A, F. unfold fiscal.
  destruct (Z.eqb_spec o 0) as [X|_]; [contradiction|]. cbn. destruct f; try discriminate F; eexists; (split; [reflexivity|reflexivity]).
Qed.
Print Assumptions C53_bigquery_fiscal_refuted.
(** Three warehouses ignore the project's zone: the same SQL, so the UTC period *)
Theorem C53_zone_ignored_refuted : forall qt dt o name, ignores_zone qt = true -> time_sql dt true o qt name = time_sql dt false o qt name.
Proof. intros qt dt o name I. unfold ignores_zone in I. apply mem_In in I. destruct I as [<-|[<-|[<-|[]]]]; reflexivity. Qed.
Print Assumptions C53_zone_ignored_refuted.
Example C53_zone_ignored_case :
  let z := before_year 2024 * DAY + 3 * HOUR in let local z := z - 5 * HOUR in
  (e <- time_sql Timestamp true 0 "SNOWFLAKE" "year" ;; eval local "SNOWFLAKE" e (VTime Timestamp z)) = Ok (VTime Timestamp (before_year 2023 * DAY))
  /\ (e <- time_sql Timestamp true 0 "DRUID" "year" ;; eval local "DRUID" e (VTime Timestamp z)) = Ok (VTime Timestamp (before_year 2024 * DAY)).
Proof. split; reflexivity. Qed.
(** A column of dates is moved to the day before by every zone behind UTC *)
Theorem C53_date_column_refuted : forall local qt d off,
  supported qt -> ignores_zone qt = false -> 0 < off <= DAY -> (forall z, local z = z - off) ->
  exists e v, time_sql DateType true 0 qt "date" = Ok e /\ eval local qt e (VTime DateType (d * DAY)) = Ok v
    /\ same_value v (VTime DateType ((d - 1) * DAY)).
Proof.
  intros local qt d off U I B L.
  destruct (C53_timeframes_partial local qt DateType true 0 "date" FDate (d * DAY)) as (e & v & z1 & z2 & T & E & S & F & M);
    [exact U|reflexivity|now exists d| |].
  { assert (tsql qt = false) as NT by (destruct (tsql qt) eqn:Q; [destruct (tsql_cases _ Q) as [-> | ->]; discriminate I|reflexivity]).
    repeat split; intros; try reflexivity; try discriminate; congruence. }
  exists e, v. split; [exact T|]. split; [exact E|]. cbn in F. subst z2. cbn [seen] in S. apply period_trunc in S.
  cbn [means] in M. destruct v; try now destruct M. cbn in M. apply period_trunc in M. cbn. subst.
  unfold trunc. rewrite floor_day, L. units; divs.
Qed.
Print Assumptions C53_date_column_refuted.
Example C53_date_column_case : supported "SNOWFLAKE" /\ ignores_zone "SNOWFLAKE" = false /\ 0 < 5 * HOUR <= DAY.
Proof. split; [now left|]. split; [reflexivity|]. split; vm_compute; [reflexivity|discriminate]. Qed.
(** Conversion is on unless the field says otherwise, or is silent and the model says otherwise *)
Theorem C53_convert : forall d1 d2 k1 k2,
  convert_timezone d1 d2 k1 k2 = true <->
  k1 = Some true \/ k1 = None /\ (k2 = Some true \/ k2 = None /\ d1 <> Some false /\ d2 <> Some false).
Proof.
  intros [[]|] [[]|] [[]|] [[]|]; cbn; split; intros H; try reflexivity; try discriminate H;
  repeat match goal with
  | H : _ \/ _ |- _ => destruct H
  | H : _ /\ _ |- _ => destruct H
  end; try discriminate; try congruence; auto 10;
  right; split; auto; right; repeat split; congruence.
Qed.
Print Assumptions C53_convert.
Theorem C53_unknown : forall dt zone o qt name, supported qt -> assoc name frames = None -> time_sql dt zone o qt name = Err KeyError.
Proof.
  intros dt zone o qt name U A. unfold time_sql. rewrite A. unfold supported in U. cbn [In] in U.
  repeat (destruct U as [<-|U]; [destruct zone; reflexivity|]). destruct U.
Qed.
Print Assumptions C53_unknown.

(** ** The names *)
(** What each name asks for: the start of a period, a number or a short name; and the names of the fiscal calendar. *)
Definition asks (name : string) (z : Z) (v : val) : Prop :=
  match name with
  | "raw" | "time" => at_time v (fun x => x = z)
  | "second" => at_time v (period Second z) | "minute" => at_time v (period Minute z) | "hour" => at_time v (period Hour z)
  | "date" => at_time v (period Day z)
  | "month" | "fiscal_month" => at_time v (period Month z)
  | "quarter" | "fiscal_quarter" => at_time v (period Quarter z)
  | "year" | "fiscal_year" => at_time v (period Year z)
  | "month_of_year_index" | "month_index" | "fiscal_month_of_year_index" | "fiscal_month_index" =>
      a_number v (fun n => 1 <= n <= 12 /\ exists y, month_at z (12 * y + (n - 1)))
  | "month_of_year" | "month_name" => a_text v (fun s => exists m, month_at z m /\ s = short (full_month m))
  | "quarter_of_year" | "fiscal_quarter_of_year" =>
      a_number v (fun n => 1 <= n <= 4 /\ exists y, month_start (12 * y + 3 * (n - 1)) * DAY <= z < month_start (12 * y + 3 * n) * DAY)
  | "hour_of_day" => a_number v (fun n => 0 <= n < 24 /\ exists d, d * DAY + n * HOUR <= z < d * DAY + (n + 1) * HOUR)
  | "day_of_week" => a_text v (fun s => exists d, d * DAY <= z < (d + 1) * DAY /\ s = short (full_day d))
  | "day_of_month" => a_number v (fun n => 1 <= n /\ exists m, month_at z m /\ (month_start m + (n - 1)) * DAY <= z < (month_start m + n) * DAY)
  | "day_of_year" => a_number v (fun n => 1 <= n /\ exists y, n <= before_year (y + 1) - before_year y /\ (before_year y + (n - 1)) * DAY <= z < (before_year y + n) * DAY)
  | _ => False
  end.
Definition fiscal_names : list string :=
  ["fiscal_month"; "fiscal_quarter"; "fiscal_year"; "fiscal_month_of_year_index"; "fiscal_month_index"; "fiscal_quarter_of_year"].
Definition timeframe_names : list string :=
  ["raw"; "time"; "second"; "minute"; "hour"; "date"; "month"; "quarter"; "year"; "month_of_year_index"; "month_index"; "month_of_year"; "month_name";
   "quarter_of_year"; "hour_of_day"; "day_of_week"; "day_of_month"; "day_of_year"] ++ fiscal_names.
Theorem C53_names : (forall name, (exists f, assoc name frames = Some f) <-> In name timeframe_names)
  /\ forall name f, assoc name frames = Some f -> (is_fiscal f = true <-> In name fiscal_names) /\ forall z v, means f z v <-> asks name z v.
Proof.
  assert (L : forall name f, assoc name frames = Some f -> In (name, f) frames) by (intros name f H; apply assoc_In; exact H).
  split.
  - intros name. split.
    + intros [f H]. apply L in H. cbn [In frames] in H. repeat (destruct H as [H|H]; [injection H as <- <-; cbv; tauto|]). destruct H.
    + intros H. unfold timeframe_names, fiscal_names in H. cbn [In app] in H. repeat (destruct H as [<-|H]; [eexists; reflexivity|]). destruct H.
  - intros name f H. apply L in H. cbn [In frames] in H.
    repeat (destruct H as [H|H]; [injection H as <- <-; split; [cbv; split; intros K; [try discriminate K; tauto|try reflexivity; exfalso; repeat (destruct K as [K|K]; [discriminate K|]); destruct K]|intros z v; reflexivity]|]). destruct H.
Qed.
Print Assumptions C53_names.
