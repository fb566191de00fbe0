(** Proleptic Gregorian calendar, as Python's datetime and pendulum use it.
    A date is its number of days since 0000-01-01; months are numbered 12*year + (month-1). *)
From Coq Require Import ZArith Lia Bool.
Local Open Scope Z_scope.

Definition leap (y : Z) : bool := (y mod 4 =? 0) && (negb (y mod 100 =? 0) || (y mod 400 =? 0)).
(** Days before January 1st of year y *)
Definition before_year (y : Z) : Z := 365 * y + (y + 3) / 4 - (y + 99) / 100 + (y + 399) / 400.
(** Days before the month, in a common year *)
Definition cum (k : Z) : Z :=
  match k with
  | 0 => 0 | 1 => 31 | 2 => 59 | 3 => 90 | 4 => 120 | 5 => 151 | 6 => 181 | 7 => 212 | 8 => 243 | 9 => 273 | 10 => 304 | _ => 334
  end.
(** First day of a month *)
Definition month_start (m : Z) : Z :=
  let y := m / 12 in let k := m mod 12 in
  before_year y + cum k + (if (2 <=? k) && leap y then 1 else 0).
Definition days_in_month (m : Z) : Z := month_start (m + 1) - month_start m.

(** The month of a day *)
Definition month_of (d : Z) : Z :=
  let m := d * 4800 / 146097 in
  if d <? month_start m then m - 1 else if month_start (m + 1) <=? d then m + 1 else m.
Definition day_of (d : Z) : Z := d - month_start (month_of d).   (* from 0 *)

(** Monday = 0, as in pendulum 3 *)
Definition weekday (d : Z) : Z := (d + 5) mod 7.

(** Adding months keeps the day of the month, or takes the last day of a shorter month *)
Definition add_months (d n : Z) : Z :=
  let m := month_of d + n in month_start m + Z.min (day_of d) (days_in_month m - 1).

Ltac divs := Z.to_euclidean_division_equations; lia.
Lemma leap_spec y : (if leap y then 1 else 0) = before_year (y + 1) - before_year y - 365.
Proof.
  unfold leap, before_year.
  destruct (Z.eqb_spec (y mod 4) 0); destruct (Z.eqb_spec (y mod 100) 0); destruct (Z.eqb_spec (y mod 400) 0); cbn [andb orb negb]; divs.
Qed.

Lemma div_mod_12 m : exists y k, m = 12 * y + k /\ 0 <= k < 12 /\ m / 12 = y /\ m mod 12 = k.
Proof.
  exists (m / 12), (m mod 12). pose proof (Z.div_mod m 12). pose proof (Z.mod_pos_bound m 12). repeat split; lia.
Qed.
Lemma month_start_eq y k : 0 <= k < 12 ->
  month_start (12 * y + k) = before_year y + cum k + (if (2 <=? k) && leap y then 1 else 0).
Proof.
  intros K. unfold month_start. replace ((12 * y + k) / 12) with y by (apply Zdiv_unique with k; lia).
  replace ((12 * y + k) mod 12) with k; [reflexivity|]. apply Zmod_unique with y; lia.
Qed.
Ltac months k := 
  assert (k = 0 \/ k = 1 \/ k = 2 \/ k = 3 \/ k = 4 \/ k = 5 \/ k = 6 \/ k = 7 \/ k = 8 \/ k = 9 \/ k = 10 \/ k = 11) as K' by lia;
  repeat (destruct K' as [K'|K']; [subst k|]); try subst k.

Lemma days_in_month_bounds m : 28 <= days_in_month m <= 31.
Proof.
  unfold days_in_month. destruct (div_mod_12 m) as [y [k [E [K _]]]]. subst m.
  assert (N : month_start (12 * y + k + 1) = if k =? 11 then before_year (y + 1) else before_year y + cum (k + 1) + (if (2 <=? k + 1) && leap y then 1 else 0)).
  { destruct (Z.eqb_spec k 11).
    - replace (12 * y + k + 1) with (12 * (y + 1) + 0) by lia. rewrite month_start_eq by lia. simpl. lia.
    - replace (12 * y + k + 1) with (12 * y + (k + 1)) by lia. apply month_start_eq. lia. }
  rewrite N, month_start_eq by lia. pose proof (leap_spec y) as L.
  months k; simpl; destruct (leap y); simpl; lia.
Qed.

Lemma month_start_bounds m : -5 * 4800 <= 4800 * month_start m - 146097 * m <= 5 * 4800.
Proof.
  destruct (div_mod_12 m) as [y [k [E [K _]]]]. subst m. rewrite month_start_eq by lia.
  pose proof (leap_spec y) as L. unfold before_year in *.
  assert (B : -1 < 0) by lia.
  months k; cbn [cum Z.leb Z.compare Pos.compare Pos.compare_cont andb]; destruct (leap y); divs.
Qed.

Lemma month_start_mono_le n : forall m, 0 <= n -> month_start m + 28 * n <= month_start (m + n).
Proof.
  intros m N. pattern n. apply natlike_ind; auto.
  - replace (m + 0) with m by lia. lia.
  - intros x X IH. pose proof (days_in_month_bounds (m + x)) as B. unfold days_in_month in B.
    replace (m + Z.succ x) with (m + x + 1) by lia. lia.
Qed.
Lemma month_start_lt a b : a < b -> month_start a + 28 <= month_start b.
Proof. intros L. pose proof (month_start_mono_le (b - a) a). replace (a + (b - a)) with b in H by lia. lia. Qed.
Lemma month_start_le a b : a <= b -> month_start a <= month_start b.
Proof. intros L. destruct (Z.eq_dec a b); [subst; lia|]. pose proof (month_start_lt a b). lia. Qed.

(** The month of a day is the one whose days include it. *)
Lemma month_of_spec d : month_start (month_of d) <= d < month_start (month_of d + 1).
Proof.
  unfold month_of. set (m := d * 4800 / 146097).
  assert (M : 146097 * m <= d * 4800 < 146097 * m + 146097) by (unfold m; pose proof (Z.div_mod (d * 4800) 146097); pose proof (Z.mod_pos_bound (d * 4800) 146097); lia).
  pose proof (month_start_bounds m). pose proof (month_start_bounds (m + 1)).
  pose proof (days_in_month_bounds (m - 1)) as P. pose proof (days_in_month_bounds m) as Q. pose proof (days_in_month_bounds (m + 1)) as R.
  unfold days_in_month in *. replace (m - 1 + 1) with m in P by lia.
  destruct (Z.ltb_spec d (month_start m)).
  - replace (m - 1 + 1) with m by lia. lia.
  - destruct (Z.leb_spec (month_start (m + 1)) d); lia.
Qed.
Lemma month_of_unique d m : month_start m <= d < month_start (m + 1) -> month_of d = m.
Proof.
  intros H. pose proof (month_of_spec d) as S. destruct (Z.lt_trichotomy (month_of d) m) as [L|[E|L]]; auto.
  - pose proof (month_start_le (month_of d + 1) m). lia.
  - pose proof (month_start_le (m + 1) (month_of d)). lia.
Qed.
Lemma month_of_start m : month_of (month_start m) = m.
Proof. apply month_of_unique. pose proof (days_in_month_bounds m). unfold days_in_month in *. lia. Qed.
Lemma month_of_add_months d n : month_of (add_months d n) = month_of d + n.
Proof.
  apply month_of_unique. unfold add_months. pose proof (days_in_month_bounds (month_of d + n)) as B.
  pose proof (month_of_spec d) as S. unfold day_of, days_in_month in *. lia.
Qed.
Lemma month_of_mono a b : a <= b -> month_of a <= month_of b.
Proof.
  intros L. destruct (Z.le_gt_cases (month_of a) (month_of b)); auto.
  pose proof (month_of_spec a). pose proof (month_of_spec b). pose proof (month_start_le (month_of b + 1) (month_of a)). lia.
Qed.

(** Known dates *)
Example date_1970 : month_start (12 * 1970) = 719528 /\ weekday 719528 = 3.
Proof. split; reflexivity. Qed.
Example date_2024_02_29 : add_months (month_start (12 * 2024) + 30) 1 = month_start (12 * 2024 + 1) + 28 /\ days_in_month (12 * 2024 + 1) = 29
  /\ weekday (month_start (12 * 2024 + 1) + 28) = 3.
Proof. repeat split; reflexivity. Qed.
