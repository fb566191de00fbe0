(** Specification and property theorems: C51, durations. *)
From Coq Require Import Lia.
From Verif Require Import PyBase PyStr PyDate Duration_Model.
Local Open Scope string_scope.
Local Open Scope list_scope.
Local Open Scope Z_scope.

(** ** Times are seconds; days and months as in PyDate. *)
Definition day (t : Z) : Z := t / 86400.
Definition tod (t : Z) : Z := t mod 86400.
(** The time n months later *)
Definition shift (t n : Z) : Z := add_months (day t) n * 86400 + tod t.
Definition fixed : list (string * Z) := [("seconds", 1); ("minutes", 60); ("hours", 3600); ("days", 86400); ("weeks", 604800)].
Definition calendar : list (string * Z) := [("months", 1); ("quarters", 3); ("years", 12)].
(** r units from s to e, up to one: warehouses truncate or count the boundaries crossed *)
Definition near (u : string) (s e r : Z) : Prop :=
  match assoc u fixed, assoc u calendar with
  | Some l, _ => (r - 1) * l < e - s < (r + 1) * l
  | None, Some k => shift s ((r - 1) * k) < e < shift s ((r + 1) * k)
  | None, None => False
  end.

(** ** The functions of the warehouses, from their documentation *)
(** DATEDIFF of Snowflake, Redshift, DuckDB, SQL Server, Synapse and DATE_DIFF of BigQuery: boundaries crossed.
    [w] is the first day of the week. *)
Definition iso_year (d : Z) : Z := month_of (d - weekday d + 3) / 12.
Definition index (w : Z) (u : string) (t : Z) : Z :=
  if String.eqb u "SECOND" then t else if String.eqb u "MINUTE" then t / 60 else if String.eqb u "HOUR" then t / 3600
  else if String.eqb u "DAY" then day t else if String.eqb u "WEEK" then (day t + 5 - w) / 7 else if String.eqb u "ISOWEEK" then (day t + 5) / 7
  else if String.eqb u "MONTH" then month_of (day t) else if String.eqb u "QUARTER" then month_of (day t) / 3
  else if String.eqb u "YEAR" then month_of (day t) / 12 else iso_year (day t).
Definition boundaries (w : Z) (u : string) (s e : Z) : Z := index w u e - index w u s.
(** Trino, Druid, Databricks and TIMESTAMP_DIFF of BigQuery: complete units *)
Definition whole_months (s e : Z) : Z :=
  let m := month_of (day e) - month_of (day s) in if shift s m <=? e then m else m - 1.
Definition whole_up (u : string) (s e : Z) : Z :=
  if String.eqb u "SECOND" then e - s else if String.eqb u "MINUTE" then (e - s) / 60 else if String.eqb u "HOUR" then (e - s) / 3600
  else if String.eqb u "DAY" then (e - s) / 86400 else if String.eqb u "WEEK" then (e - s) / 604800
  else if String.eqb u "MONTH" then whole_months s e else if String.eqb u "QUARTER" then whole_months s e / 3 else whole_months s e / 12.
Definition whole (u : string) (s e : Z) : Z := if s <=? e then whole_up u s e else - whole_up u e s.
(** AGE of Postgres: the fields are subtracted, borrowing from the next larger one; days are borrowed from the
    month of the earlier time *)
Definition age_up (s e : Z) : Z * Z * Z :=
  let b := if tod e <? tod s then 1 else 0 in
  let d := day_of (day e) - day_of (day s) - b in
  let m := month_of (day e) - month_of (day s) in
  let c := if d <? 0 then 1 else 0 in
  (m - c, d + c * days_in_month (month_of (day s)), tod e - tod s + b * 86400).
Definition date_part (p : string) (x : Z * Z * Z) : Z :=
  let '(m, d, t) := x in
  if String.eqb p "YEAR" then m / 12 else if String.eqb p "month" then m mod 12 else if String.eqb p "DAY" then d
  else if String.eqb p "HOUR" then t / 3600 else if String.eqb p "MINUTE" then t mod 3600 / 60 else t mod 60.
Definition age_part (p : string) (s e : Z) : Z := if s <=? e then date_part p (age_up s e) else - date_part p (age_up e s).

Definition counts_boundaries (qt : string) : bool := mem qt ["SNOWFLAKE"; "REDSHIFT"; "DUCK_DB"; "SQL_SERVER"; "AZURE_SYNAPSE"].
Section Eval.
  Variables (qt : string) (w s e : Z).
  Definition value (x : side) : Z := match x with Start => s | End_ => e end.
  (** DATEDIFF(u, a, b) is b - a; DATE_DIFF(a, b, u), TIMESTAMP_DIFF(a, b, u) and AGE(a, b) are a - b *)
  Definition eval_atom (a : datom) : Z :=
    match a with
    | ADiff _ _ u a b => if counts_boundaries qt then boundaries w u (value a) (value b) else whole u (value a) (value b)
    | ACast fn _ u a b => if String.eqb fn "DATE_DIFF" then boundaries w u (value b) (value a) else whole u (value b) (value a)
    | APart p a b => age_part p (value b) (value a)
    | ATrunc p a b n => Z.quot (age_part p (value b) (value a)) n
    end.
  Definition eval (x : dsql) : Z :=
    fold_right Z.add 0 (map (fun t => fold_left Z.mul (snd t) (eval_atom (fst t))) x).
End Eval.

(** ** Calendar facts *)
Lemma day_tod t : t = day t * 86400 + tod t /\ 0 <= tod t < 86400.
Proof. unfold day, tod. split; [divs|]. apply Z.mod_pos_bound. lia. Qed.
Lemma day_mono a b : a <= b -> day a <= day b.
Proof. unfold day. intros. apply Z.div_le_mono; lia. Qed.
Lemma add_months_lt d d' n : month_of d + n < month_of d' -> add_months d n < d'.
Proof.
  intros H. pose proof (month_of_spec (add_months d n)) as A. rewrite month_of_add_months in A. pose proof (month_of_spec d') as B.
  pose proof (month_start_le (month_of d + n + 1) (month_of d')). lia.
Qed.
Lemma add_months_gt d d' n : month_of d' < month_of d + n -> d' < add_months d n.
Proof.
  intros H. pose proof (month_of_spec (add_months d n)) as A. rewrite month_of_add_months in A. pose proof (month_of_spec d') as B.
  pose proof (month_start_le (month_of d' + 1) (month_of d + n)). lia.
Qed.
Lemma shift_before s e n : month_of (day s) + n < month_of (day e) -> shift s n < e.
Proof. intros H. apply add_months_lt in H. pose proof (day_tod s). pose proof (day_tod e). unfold shift. lia. Qed.
Lemma shift_after s e n : month_of (day e) < month_of (day s) + n -> e < shift s n.
Proof. intros H. apply add_months_gt in H. pose proof (day_tod s). pose proof (day_tod e). unfold shift. lia. Qed.
Lemma month_of_shift s n : month_of (day (shift s n)) = month_of (day s) + n.
Proof.
  unfold shift. pose proof (day_tod s) as [_ T]. unfold day at 1. rewrite Z.add_comm, Z.div_add by lia. rewrite Z.div_small by lia.
  apply month_of_add_months.
Qed.
Lemma shift_mono s a b : a < b -> shift s a < shift s b.
Proof. intros H. apply shift_after. rewrite month_of_shift. lia. Qed.
Lemma shift_mono_le s a b : a <= b -> shift s a <= shift s b.
Proof. intros H. destruct (Z.eq_dec a b) as [->|N]; [lia|]. pose proof (shift_mono s a b). lia. Qed.
Lemma whole_months_spec s e : shift s (whole_months s e) <= e < shift s (whole_months s e + 1).
Proof.
  unfold whole_months. destruct (_ <=? _) eqn:L.
  - apply Z.leb_le in L. split; [exact L|]. apply shift_after. lia.
  - apply Z.leb_gt in L. split; [|replace (_ - 1 + 1) with (month_of (day e) - month_of (day s)) by lia; exact L].
    apply Z.lt_le_incl. apply shift_before. lia.
Qed.

(** ** Everywhere but Postgres, and but ISO years *)
Lemma near_boundaries w u n s e : 0 <= w < 7 -> In (u, n) units -> near u s e (boundaries w n s e).
Proof.
  intros W H. unfold boundaries, units in *. simpl in H.
  repeat (destruct H as [H|H]; [injection H as <- <-; unfold near; cbn [assoc fixed calendar String.eqb Ascii.eqb Bool.eqb]; unfold index; cbn [String.eqb Ascii.eqb Bool.eqb]|]); try destruct H.
  1-5: unfold day; divs.
  - split; [apply shift_before|apply shift_after]; lia.
  - split; [apply shift_before|apply shift_after]; divs.
  - split; [apply shift_before|apply shift_after]; divs.
Qed.
Lemma near_whole u n s e : s <= e -> In (u, n) units -> near u s e (whole n s e).
Proof.
  intros W H. unfold whole. replace (s <=? e) with true by (symmetry; apply Z.leb_le; exact W). unfold units in *. simpl in H.
  pose proof (whole_months_spec s e) as [A B].
  repeat (destruct H as [H|H]; [injection H as <- <-; unfold near; cbn [assoc fixed calendar String.eqb Ascii.eqb Bool.eqb]; unfold whole_up; cbn [String.eqb Ascii.eqb Bool.eqb]|]); try destruct H.
  1-5: divs.
  - rewrite !Z.mul_1_r. split; [|exact B]. pose proof (shift_mono s (whole_months s e - 1) (whole_months s e)). lia.
  - set (m := whole_months s e) in *. pose proof (shift_mono s ((m / 3 - 1) * 3) m ltac:(divs)). pose proof (shift_mono_le s (m + 1) ((m / 3 + 1) * 3) ltac:(divs)). lia.
  - set (m := whole_months s e) in *. pose proof (shift_mono s ((m / 12 - 1) * 12) m ltac:(divs)). pose proof (shift_mono_le s (m + 1) ((m / 12 + 1) * 12) ltac:(divs)). lia.
Qed.
Definition warehouses : list string :=
  ["SNOWFLAKE"; "BIGQUERY"; "REDSHIFT"; "POSTGRES"; "DRUID"; "SQL_SERVER"; "DUCK_DB"; "DATABRICKS"; "AZURE_SYNAPSE"; "TRINO"].

(** The SQL of a duration has the number of units between the two times as its value, up to one unit. *)
Theorem C51_durations qt u w s e : In qt warehouses -> qt <> "POSTGRES" -> In u (map fst units) -> ~ (qt = "BIGQUERY" /\ u = "years") -> 0 <= w < 7 -> s <= e ->
  exists x, duration_sql qt u = Ok x /\ near u s e (eval qt w s e x).
Proof.
  intros Q NP U NB W L. apply in_map_iff in U. destruct U as [[u' n] [E U]]. cbn [fst] in E. subst u'.
  pose proof (near_boundaries w u n s e W U) as B. pose proof (near_whole u n s e L U) as Wh.
  assert (A : assoc u units = Some n).
  { unfold units in U. simpl in U. repeat (destruct U as [U|U]; [injection U as <- <-; reflexivity|]). destruct U. }
  simpl in Q.
  repeat (destruct Q as [<-|Q]; [try congruence;
    try (exists (one (ADiff "DATEDIFF" true n Start End_)); split; [unfold duration_sql; cbn [mem String.eqb Ascii.eqb Bool.eqb orb]; unfold uniform; rewrite A; reflexivity|];
         unfold eval; cbn [one map fold_right snd fst fold_left eval_atom]; cbn [counts_boundaries mem String.eqb Ascii.eqb Bool.eqb orb value]; rewrite Z.add_0_r; assumption);
    try (exists (one (ADiff "DATEDIFF" false n Start End_)); split; [unfold duration_sql; cbn [mem String.eqb Ascii.eqb Bool.eqb orb]; unfold uniform; rewrite A; reflexivity|];
         unfold eval; cbn [one map fold_right snd fst fold_left eval_atom]; cbn [counts_boundaries mem String.eqb Ascii.eqb Bool.eqb orb value]; rewrite Z.add_0_r; assumption);
    try (exists (one (ADiff "DATE_DIFF" true n Start End_)); split; [unfold duration_sql; cbn [mem String.eqb Ascii.eqb Bool.eqb orb]; unfold uniform; rewrite A; reflexivity|];
         unfold eval; cbn [one map fold_right snd fst fold_left eval_atom]; cbn [counts_boundaries mem String.eqb Ascii.eqb Bool.eqb orb value]; rewrite Z.add_0_r; assumption);
    try (exists (one (ADiff "TIMESTAMPDIFF" false n Start End_)); split; [unfold duration_sql; cbn [mem String.eqb Ascii.eqb Bool.eqb orb]; unfold uniform; rewrite A; reflexivity|];
         unfold eval; cbn [one map fold_right snd fst fold_left eval_atom]; cbn [counts_boundaries mem String.eqb Ascii.eqb Bool.eqb orb value]; rewrite Z.add_0_r; assumption)
    |]); try destruct Q.
  (* BigQuery *)
  unfold units in U. simpl in U.
  repeat (destruct U as [U|U]; [injection U as <- <-; try (exfalso; apply NB; split; reflexivity);
    eexists; (split; [reflexivity|]); unfold eval; cbn [one map fold_right snd fst fold_left eval_atom];
    cbn [String.eqb Ascii.eqb Bool.eqb value]; rewrite Z.add_0_r; try assumption|]); try destruct U.
  pose proof (near_boundaries 0 "weeks" "WEEK" s e ltac:(lia) ltac:(simpl; tauto)) as H.
  unfold near, boundaries, index in *. cbn [assoc fixed calendar String.eqb Ascii.eqb Bool.eqb] in *. rewrite !Z.sub_0_r in H. exact H.
Qed.
Print Assumptions C51_durations.

(** A window of n units lets through everything up to n units after the start and nothing n+1 units after it. *)
Theorem C51_windows u l k s e r n : near u s e r ->
  (assoc u fixed = Some l -> (e - s <= n * l -> r <= n) /\ (r <= n -> e - s < (n + 1) * l))
  /\ (assoc u fixed = None -> assoc u calendar = Some k -> (e <= shift s (n * k) -> r <= n) /\ (r <= n -> e < shift s ((n + 1) * k))).
Proof.
  unfold near. intros H. split.
  - intros F. rewrite F in H. assert (0 < l). { unfold fixed in F. cbn in F. repeat (destruct (String.eqb _ _) in F; [injection F as <-; lia|]). discriminate. }
    split; intros; nia.
  - intros F C. rewrite F, C in H. assert (0 < k). { unfold calendar in C. cbn in C. repeat (destruct (String.eqb _ _) in C; [injection C as <-; lia|]). discriminate. }
    split; intros L.
    + destruct (Z.le_gt_cases r n); auto. pose proof (shift_mono_le s (n * k) ((r - 1) * k) ltac:(nia)). lia.
    + pose proof (shift_mono_le s ((r + 1) * k) ((n + 1) * k) ltac:(nia)). lia.
Qed.
Print Assumptions C51_windows.

(** Unknown units and warehouses are refused, and only those. *)
Theorem C51_refused qt u : duration_sql qt u = Err QueryError <-> ~ (In qt warehouses /\ In u (map fst units)).
Proof.
  assert (P : forall q, In q warehouses -> In u (map fst units) -> duration_sql q u <> Err QueryError).
  { intros q Q U. simpl in Q, U.
    repeat (destruct Q as [<-|Q]; [repeat (destruct U as [<-|U]; [discriminate|]); destruct U|]). destruct Q. }
  split; [intros E [Q U]; exact (P qt Q U E)|]. intros N.
  assert (N' : ~ In qt warehouses \/ ~ In u (map fst units)).
  { destruct (in_dec string_dec qt warehouses) as [Q|]; [|auto]. right. intros U. apply N. split; assumption. }
  destruct N' as [N'|N'].
  - unfold duration_sql, mem. cbn [existsb]. simpl in N'.
    repeat match goal with |- context [String.eqb qt ?c] => destruct (String.eqb_spec qt c) as [->|]; [exfalso; apply N'; tauto|] end. reflexivity.
  - assert (A : assoc u units = None /\ postgres u = None /\ bigquery u = None).
    { unfold postgres, bigquery, units. cbn [assoc]. simpl in N'.
      repeat match goal with |- context [String.eqb u ?c] => destruct (String.eqb_spec u c) as [->|]; [exfalso; apply N'; tauto|] end. repeat split; reflexivity. }
    destruct A as (A1 & A2 & A3). unfold duration_sql, uniform. rewrite A1, A2, A3. repeat (destruct (mem _ _) || destruct (String.eqb _ _)); reflexivity.
Qed.
Print Assumptions C51_refused.

(** ** Postgres *)
Lemma day_of_bounds d : 0 <= day_of d < days_in_month (month_of d).
Proof. unfold day_of, days_in_month. pose proof (month_of_spec d). lia. Qed.
Lemma day_split d : d = month_start (month_of d) + day_of d.
Proof. unfold day_of. lia. Qed.
Lemma eq3 (a b c a' b' c' : Z) : a = a' -> b = b' -> c = c' -> (a, b, c) = (a', b', c').
Proof. congruence. Qed.
Lemma age_month s e : s <= e -> e - s < 28 * 86400 -> age_up s e = (0, (e - s) / 86400, (e - s) mod 86400).
Proof.
  intros L H. unfold age_up. pose proof (day_tod s) as [S1 S2]. pose proof (day_tod e) as [E1 E2].
  pose proof (day_split (day s)) as DS. pose proof (day_split (day e)) as DE. pose proof (day_of_bounds (day s)) as BS. pose proof (day_of_bounds (day e)) as BE.
  pose proof (month_of_mono (day s) (day e) (day_mono _ _ L)) as M.
  set (ms := month_of (day s)) in *. set (me := month_of (day e)) in *. set (ds := day_of (day s)) in *. set (de := day_of (day e)) in *.
  assert (ME : me = ms \/ me = ms + 1).
  { destruct (Z.le_gt_cases me (ms + 1)); [lia|]. exfalso. pose proof (month_start_le (ms + 2) me ltac:(lia)) as X.
    pose proof (days_in_month_bounds (ms + 1)) as Y. unfold days_in_month in *. replace (ms + 1 + 1) with (ms + 2) in Y by lia. nia. }
  pose proof (days_in_month_bounds ms) as DB.
  assert (Q : forall q r, e - s = q * 86400 + r -> 0 <= r < 86400 -> (e - s) / 86400 = q /\ (e - s) mod 86400 = r).
  { intros q r E R. rewrite E, Z.add_comm. rewrite Z.div_add, Z.mod_add by lia. rewrite Z.div_small, Z.mod_small by lia. lia. }
  destruct ME as [ME|ME]; rewrite ME in *.
  - assert (C : de - ds - (if tod e <? tod s then 1 else 0) <? 0 = false).
    { apply Z.ltb_ge. destruct (tod e <? tod s) eqn:T; [apply Z.ltb_lt in T|apply Z.ltb_ge in T]; nia. }
    rewrite C. destruct (tod e <? tod s) eqn:T; [apply Z.ltb_lt in T|apply Z.ltb_ge in T].
    + destruct (Q (de - ds - 1) (tod e - tod s + 86400)) as [-> ->]; [lia|lia|]. apply eq3; lia.
    + destruct (Q (de - ds) (tod e - tod s)) as [-> ->]; [lia|lia|]. apply eq3; lia.
  - assert (DI : month_start (ms + 1) = month_start ms + days_in_month ms) by (unfold days_in_month; lia).
    assert (C : de - ds - (if tod e <? tod s then 1 else 0) <? 0 = true).
    { apply Z.ltb_lt. destruct (tod e <? tod s) eqn:T; [apply Z.ltb_lt in T|apply Z.ltb_ge in T]; nia. }
    rewrite C. destruct (tod e <? tod s) eqn:T; [apply Z.ltb_lt in T|apply Z.ltb_ge in T].
    + destruct (Q (days_in_month ms + de - ds - 1) (tod e - tod s + 86400)) as [-> ->]; [lia|lia|]. apply eq3; lia.
    + destruct (Q (days_in_month ms + de - ds) (tod e - tod s)) as [-> ->]; [lia|lia|]. apply eq3; lia.
Qed.
Lemma age_months s e : s <= e -> let m := fst (fst (age_up s e)) in shift s (m - 1) < e < shift s (m + 2).
Proof.
  intros L. unfold age_up. cbn [fst]. set (c := if _ <? 0 then 1 else 0). assert (C : c = 0 \/ c = 1) by (subst c; destruct (_ <? 0); auto).
  split; [apply shift_before|apply shift_after]; lia.
Qed.
(** Complete months: like AGE, which only differs from them at the ends of months (2024-01-31 to 2024-02-29 is no
    month for AGE) *)
Lemma age_months_near s e : s <= e -> day_of (day s) < 28 -> let m := fst (fst (age_up s e)) in shift s (m - 1) < e < shift s (m + 1).
Proof.
  intros L S28. split; [apply age_months; exact L|]. unfold age_up. cbn [fst]. pose proof (days_in_month_bounds (month_of (day e))).
  pose proof (day_tod s) as [S1 S2]. pose proof (day_tod e) as [E1 E2].
  pose proof (day_split (day s)) as DS. pose proof (day_split (day e)) as DE. pose proof (day_of_bounds (day s)) as BS. pose proof (day_of_bounds (day e)) as BE.
  set (b := if tod e <? tod s then 1 else 0). destruct (_ <? 0) eqn:D.
  - apply Z.ltb_lt in D. replace (_ - 1 + 1) with (month_of (day e) - month_of (day s)) by lia.
    unfold shift, add_months. replace (month_of (day s) + (month_of (day e) - month_of (day s))) with (month_of (day e)) by lia.
    subst b. destruct (tod e <? tod s) eqn:T; [apply Z.ltb_lt in T|apply Z.ltb_ge in T]; lia.
  - apply shift_after. lia.
Qed.
Theorem C51_postgres_months u w s e : In u ["months"; "quarters"; "years"] -> s <= e -> day_of (day s) < 28 ->
  exists x, duration_sql "POSTGRES" u = Ok x /\ near u s e (eval "POSTGRES" w s e x).
Proof.
  intros U L S28. pose proof (age_months_near s e L S28) as N. cbn zeta in N.
  assert (E : forall p, age_part p s e = date_part p (age_up s e)) by (intros p; unfold age_part; replace (s <=? e) with true by (symmetry; apply Z.leb_le; exact L); reflexivity).
  destruct (age_up s e) as [[m d] t] eqn:A. cbn [fst] in N.
  assert (M0 : 0 <= m).
  { unfold age_up in A. injection A as A _ _. pose proof (month_of_mono (day s) (day e) (day_mono _ _ L)) as M.
    pose proof (day_split (day s)). pose proof (day_split (day e)). pose proof (day_tod s). pose proof (day_tod e).
    destruct (Z.eq_dec (month_of (day e)) (month_of (day s))) as [X|X]; [|destruct (_ <? 0) in A; lia].
    rewrite X in *. destruct (tod e <? tod s) eqn:T; [apply Z.ltb_lt in T|apply Z.ltb_ge in T]; (destruct (_ <? 0) eqn:D in A; [apply Z.ltb_lt in D|]; lia). }
  destruct U as [<-|[<-|[<-|[]]]]; (eexists; split; [reflexivity|]);
    unfold near, eval, pg_years, part, mul_add, one; cbn [mul_last app map fold_right snd fst fold_left eval_atom value assoc fixed calendar String.eqb Ascii.eqb Bool.eqb];
    rewrite !E; unfold date_part; cbn [String.eqb Ascii.eqb Bool.eqb].
  - replace (m / 12 * 12 + (m mod 12 + 0)) with m by divs. rewrite !Z.mul_1_r. exact N.
  - rewrite Z.quot_div_nonneg by (try lia; apply Z.mod_pos_bound; lia). replace (m / 12 * 4 + (m mod 12 / 3 + 0)) with (m / 3) by divs.
    pose proof (shift_mono_le s ((m / 3 - 1) * 3) (m - 1) ltac:(divs)). pose proof (shift_mono_le s (m + 1) ((m / 3 + 1) * 3) ltac:(divs)).
    destruct (Z.eq_dec ((m / 3 - 1) * 3) (m - 1)); lia.
  - replace (m / 12 + 0) with (m / 12) by lia. pose proof (shift_mono_le s ((m / 12 - 1) * 12) (m - 1) ltac:(divs)). pose proof (shift_mono_le s (m + 1) ((m / 12 + 1) * 12) ltac:(divs)). lia.
Qed.
Print Assumptions C51_postgres_months.
(** The smaller units are right on Postgres only for short durations: days, weeks and hours below four weeks,
    minutes below a day, seconds below an hour. *)
Theorem C51_postgres_short_partial u l w s e : In (u, l) [("days", 28 * 86400); ("weeks", 28 * 86400); ("hours", 28 * 86400); ("minutes", 86400); ("seconds", 3600)] ->
  s <= e -> e - s < l -> exists x, duration_sql "POSTGRES" u = Ok x /\ near u s e (eval "POSTGRES" w s e x).
Proof.
  intros U L H. assert (H28 : e - s < 28 * 86400) by (simpl in U; repeat (destruct U as [U|U]; [injection U as <- <-; lia|]); destruct U).
  pose proof (age_month s e L H28) as A.
  assert (E : forall p, age_part p s e = date_part p (age_up s e)) by (intros p; unfold age_part; replace (s <=? e) with true by (symmetry; apply Z.leb_le; exact L); reflexivity).
  assert (P : 0 <= (e - s) / 86400) by divs.
  simpl in U. repeat (destruct U as [U|U]; [injection U as <- <-; (eexists; split; [reflexivity|]);
    unfold near, eval, pg_seconds, pg_minutes, pg_hours, pg_days, part, mul_add, one; cbn [mul_last app map fold_right snd fst fold_left eval_atom value assoc fixed calendar String.eqb Ascii.eqb Bool.eqb];
    rewrite !E, A; unfold date_part; cbn [String.eqb Ascii.eqb Bool.eqb]; try rewrite Z.quot_div_nonneg by lia; divs|]). destruct U.
Qed.
Print Assumptions C51_postgres_short_partial.
(** 2024-01-01 to 2024-02-01 is 0 days, a day is 24 minutes, an hour is 60 seconds *)
Theorem C51_postgres_refuted : exists s e x y z, duration_sql "POSTGRES" "days" = Ok x /\ duration_sql "POSTGRES" "minutes" = Ok y /\ duration_sql "POSTGRES" "seconds" = Ok z
  /\ e = s + 31 * 86400 /\ eval "POSTGRES" 0 s e x = 0 /\ ~ near "days" s e 0
  /\ eval "POSTGRES" 0 s (s + 86400) y = 24 /\ ~ near "minutes" s (s + 86400) 24
  /\ eval "POSTGRES" 0 s (s + 3600) z = 60 /\ ~ near "seconds" s (s + 3600) 60.
Proof.
  exists (month_start (12 * 2024) * 86400), (month_start (12 * 2024 + 1) * 86400). do 3 eexists. repeat split; try reflexivity;
  unfold near; cbn [assoc fixed calendar String.eqb Ascii.eqb Bool.eqb]; intros [A B]; vm_compute in A, B; discriminate.
Qed.
Print Assumptions C51_postgres_refuted.
(** BigQuery's ISO years: 2016-01-03 to 2018-12-31, less than three years, is 4 years *)
Theorem C51_bigquery_years_refuted : exists s e x, s <= e /\ duration_sql "BIGQUERY" "years" = Ok x /\ eval "BIGQUERY" 0 s e x = 4 /\ e < shift s 36 /\ ~ near "years" s e 4.
Proof.
  exists ((month_start (12 * 2016) + 2) * 86400), ((month_start (12 * 2018 + 11) + 30) * 86400). eexists. repeat split; try reflexivity.
  - vm_compute. discriminate.
  - unfold near; cbn [assoc fixed calendar String.eqb Ascii.eqb Bool.eqb]; intros [A B]; vm_compute in A, B; discriminate.
Qed.
Print Assumptions C51_bigquery_years_refuted.
Example C51_example : exists x, duration_sql "SNOWFLAKE" "days" = Ok x /\ eval "SNOWFLAKE" 0 86399 86400 x = 1 /\ near "days" 86399 86400 1
  /\ (exists y, duration_sql "TRINO" "days" = Ok y /\ eval "TRINO" 0 86399 86400 y = 0 /\ near "days" 86399 86400 0).
Proof. eexists. repeat split. eexists. repeat split. Qed.

(** ** The text of every warehouse and unit *)
Definition unit_word (u : string) : option string :=
  assoc u [("seconds", "SECOND"); ("minutes", "MINUTE"); ("hours", "HOUR"); ("days", "DAY"); ("weeks", "WEEK"); ("months", "MONTH"); ("quarters", "QUARTER"); ("years", "YEAR")].
Definition age_of (p s e : string) : string := ("DATE_PART('" ++ p ++ "', AGE(" ++ e ++ ", " ++ s ++ "))")%string.
Definition postgres_text (u s e : string) : option string :=
  assoc u [("seconds", (age_of "DAY" s e ++ " * 24 + " ++ age_of "HOUR" s e ++ " * 60 + " ++ age_of "MINUTE" s e ++ " * 60 + " ++ age_of "SECOND" s e)%string);
           ("minutes", (age_of "DAY" s e ++ " * 24 + " ++ age_of "HOUR" s e ++ " * 60 + " ++ age_of "MINUTE" s e)%string);
           ("hours", (age_of "DAY" s e ++ " * 24 + " ++ age_of "HOUR" s e)%string); ("days", age_of "DAY" s e);
           ("weeks", ("TRUNC(" ++ age_of "DAY" s e ++ "/7)")%string); ("months", (age_of "YEAR" s e ++ " * 12 + " ++ age_of "month" s e)%string);
           ("quarters", (age_of "YEAR" s e ++ " * 4 + TRUNC(" ++ age_of "month" s e ++ "/3)")%string); ("years", age_of "YEAR" s e)].
Definition bigquery_text (u s e : string) : option string :=
  let t n := ("TIMESTAMP_DIFF(CAST(" ++ e ++ " as TIMESTAMP), CAST(" ++ s ++ " as TIMESTAMP), " ++ n ++ ")")%string in
  let d n := ("DATE_DIFF(CAST(" ++ e ++ " as DATE), CAST(" ++ s ++ " as DATE), " ++ n ++ ")")%string in
  assoc u [("seconds", t "SECOND"); ("minutes", t "MINUTE"); ("hours", t "HOUR"); ("days", d "DAY"); ("weeks", d "ISOWEEK"); ("months", d "MONTH"); ("quarters", d "QUARTER"); ("years", d "ISOYEAR")].
Definition duration_text_of (qt u s e : string) : option string :=
  let diff f q := match unit_word u with Some n => Some (f ++ "(" ++ q ++ n ++ q ++ ", " ++ s ++ ", " ++ e ++ ")")%string | None => None end in
  match qt with
  | "SNOWFLAKE" | "REDSHIFT" | "DUCK_DB" => diff "DATEDIFF" "'"
  | "TRINO" => diff "DATE_DIFF" "'"
  | "DRUID" => diff "TIMESTAMPDIFF" ""
  | "SQL_SERVER" | "DATABRICKS" | "AZURE_SYNAPSE" => diff "DATEDIFF" ""
  | "POSTGRES" => postgres_text u s e
  | "BIGQUERY" => bigquery_text u s e
  | _ => None
  end.
Theorem C51_text qt u x s e : duration_sql qt u = Ok x -> duration_text_of qt u s e = Some (text s e x).
Proof.
  intros D. destruct (in_dec string_dec qt warehouses) as [Q|Q]; [|exfalso; assert (R : duration_sql qt u = Err QueryError) by (apply C51_refused; tauto); congruence].
  destruct (in_dec string_dec u (map fst units)) as [U|U]; [|exfalso; assert (R : duration_sql qt u = Err QueryError) by (apply C51_refused; tauto); congruence].
  cbn [In warehouses map fst units] in Q, U.
  repeat match type of Q with _ \/ _ => destruct Q as [<-|Q] | False => destruct Q end;
  repeat match type of U with _ \/ _ => destruct U as [<-|U] | False => destruct U end;
  vm_compute in D; injection D as <-; cbv; f_equal; repeat (rewrite append_assoc; cbn [append]); reflexivity.
Qed.
Print Assumptions C51_text.
(** A unit is written with a final s in small letters; one that has it already gets no other *)
Lemma last_char a c : substring (String.length (a ++ String c "") - 1) 1 (a ++ String c "") = String c "".
Proof.
  induction a as [|x a IH]; [reflexivity|]. cbn [append String.length]. replace (S (String.length (a ++ String c "")) - 1)%nat with (S (String.length (a ++ String c "") - 1)).
  - cbn [substring]. exact IH.
  - rewrite append_length. cbn [String.length]. lia.
Qed.
Theorem C51_plural a c : plural (a ++ String c "") = if Ascii.eqb c "s" then lower (a ++ String c "") else (lower (a ++ String c "") ++ "s")%string.
Proof. unfold plural. rewrite last_char. cbn [String.eqb]. destruct (Ascii.eqb c "s"); reflexivity. Qed.
Print Assumptions C51_plural.
