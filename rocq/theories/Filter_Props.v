(** C18 (filter mini-language), C19 (relative dates), C20 (the process-wide week start). *)
From Coq Require Import QArith.
From Verif Require Import PyBase PyStr PyRx PyDate Core_Model Filter_Model Filter_Spec Filter_Proofs FilterDate_Spec FilterDate_Proofs.
Local Open Scope string_scope.
Local Open Scope list_scope.
Local Open Scope Z_scope.

(** ** C18 *)
(** A value written in one of the documented forms gives one condition whose criterion is true (false,
    unknown) on a column value exactly when the form's meaning is. *)
Theorem C18_forms num now g w f : admissible num f ->
  exists c k, filter_dict num now g (VStr (write f)) w = (Ok [c], default_globals) /\
              criterion num false (fst c) (snd c) = Ok k /\
              forall x, eval_crit k x = meaning f x.
Proof.
  intros A. pose proof A as [D _]. destruct (form_parsed num f A) as [N [c [k [C [K E]]]]]. exists c, k. split; [|auto].
  apply filter_dict_plain; auto.
Qed.
Print Assumptions C18_forms.
(** "-%late%": text not containing "late" in any case *)
Example C18_forms_case :
  admissible (fun _ => Err ValueError) (WNotContains "late") /\
  meaning (WNotContains "late") (XStr "Very LATE order") = Some false /\
  meaning (WNotContains "late") (XStr "on time") = Some true /\
  meaning (WNotContains "late") XNull = None.
Proof.
  split; [|repeat split]. split; [split; [reflexivity|]; intros w W; simpl in W; repeat (destruct W as [<-|W]; [reflexivity|]); destruct W|].
  repeat split; discriminate.
Qed.
(** Python values that are not strings *)
Theorem C18_other_values num now g w :
  (exists c, filter_dict num now g VNone w = (Ok [c], default_globals) /\ c = (EIsNull, CNone)) /\
  (forall b, filter_dict num now g (VBool b) w = (Ok [(EEqualTo, CBool b)], default_globals)).
Proof.
  split.
  - exists (EIsNull, CNone). split; reflexivity.
  - intros []; reflexivity.
Qed.
Print Assumptions C18_other_values.

(** A comma list mixing plain and negated items is refused. *)
Theorem C18_mixed_lists num now g w ws : (2 <= List.length ws)%nat ->
  (forall x, In x ws -> x <> "" /\ one_item x) ->
  (exists x, In x ws /\ dashed x = true) -> (exists x, In x ws /\ dashed x = false) ->
  no_dates (join_with ", " ws) -> no_keyword (join_with ", " ws) ->
  filter_dict num now g (VStr (join_with ", " ws)) w = (Err QueryError, default_globals).
Proof.
  intros L H [x [X1 X2]] [y [Y1 Y2]] D K. assert (NE : ws <> []) by (destruct ws; [simpl in L; lia|discriminate]).
  assert (C : clean_string num (join_with ", " ws) = Err QueryError).
  { rewrite (list_string _ ws); auto.
    - rewrite all_negated_spec, any_negated_spec by (intros; apply H; auto). cbn [bind].
      assert (forallb dashed ws = false) as ->.
      { destruct (forallb dashed ws) eqn:E; auto. rewrite forallb_forall in E. rewrite (E y Y1) in Y2. discriminate. }
      assert (existsb dashed ws = true) as -> by (apply existsb_exists; eauto). reflexivity.
    - apply split_join; auto; [discriminate|]. intros z Z. apply H; auto. }
  unfold filter_dict. cbn [py_str].
  assert (E : join_with ", " ws <> "").
  { destruct ws as [|a [|b l]]; try (simpl in L; lia). intros E. pose proof (contains_join ", " a b l) as C'. rewrite E in C'. discriminate. }
  apply String.eqb_neq in E. rewrite E. rewrite no_date_condition by auto. unfold clean_value.
  pose proof (not_reserved_list ws L) as R. simpl in R.
  assert (String.eqb (join_with ", " ws) "NULL" = false) as -> by (apply String.eqb_neq; intros F; apply R; auto).
  assert (String.eqb (join_with ", " ws) "-NULL" = false) as -> by (apply String.eqb_neq; intros F; apply R; auto).
  assert (String.eqb (join_with ", " ws) "TRUE" = false) as -> by (apply String.eqb_neq; intros F; apply R; auto).
  assert (String.eqb (join_with ", " ws) "FALSE" = false) as -> by (apply String.eqb_neq; intros F; apply R; rewrite F; tauto).
  rewrite C. reflexivity.
Qed.
Print Assumptions C18_mixed_lists.
Example C18_mixed_case num now g w : filter_dict num now g (VStr "east, -west") w = (Err QueryError, default_globals).
Proof. reflexivity. Qed.

(** What falls outside.  A plain text containing something like "3 days" is read as a date range. *)
Theorem C18_text_read_as_dates_refuted : exists s now num cs,
  has_char "%" s = false /\ one_item s /\ no_keyword s /\ head_ok s /\
  fst (filter_dict num now default_globals (VStr s) None) = Ok cs /\ cs <> [(EEqualTo, CStr s)].
Proof.
  exists "Past 30 days", (86400 * 738000), (fun _ => Err ValueError).
  eexists. split; [reflexivity|]. split; [reflexivity|].
  split; [intros [I|[I|[I|[I|[]]]]]; discriminate I|]. split; [exists "P"%char, "ast 30 days"; split; reflexivity|].
  split; [vm_compute; reflexivity|]. discriminate.
Qed.
Print Assumptions C18_text_read_as_dates_refuted.
(** A LIKE wildcard inside the text of a %-form stays a wildcard. *)
Theorem C18_wildcards_not_escaped_refuted : exists w num c k,
  fst (filter_dict num 0 default_globals (VStr ("%" ++ w ++ "%")) None) = Ok [c] /\ criterion num false (fst c) (snd c) = Ok k /\
  exists s, eval_crit k (XStr s) = Some true /\ contains (lower w) (lower s) = false.
Proof.
  exists "a_b", (fun _ => Err ValueError), (EContainsCI, CStr "a_b"), (KLike true false "%a_b%").
  split; [vm_compute; reflexivity|]. split; [reflexivity|]. exists "axb". split; reflexivity.
Qed.
Print Assumptions C18_wildcards_not_escaped_refuted.
(** The integers 0 and 1 become booleans, and other integers raise AttributeError. *)
Theorem C18_integers_refuted num now g w :
  filter_dict num now g (VInt 1) w = (Ok [(EEqualTo, CBool true)], default_globals) /\
  filter_dict num now g (VInt 0) w = (Ok [(EEqualTo, CBool false)], default_globals) /\
  filter_dict num now g (VInt 5) w = (Err AttributeError, default_globals).
Proof. repeat split. Qed.
Print Assumptions C18_integers_refuted.
(** "-" alone and a list ending in a comma raise IndexError. *)
Theorem C18_index_errors_refuted num now g w :
  filter_dict num now g (VStr "-") w = (Err IndexError, default_globals) /\
  filter_dict num now g (VStr "a, ") w = (Err IndexError, default_globals).
Proof. split; reflexivity. Qed.
Print Assumptions C18_index_errors_refuted.

(** ** C19 *)
(** Every canonical relative date gives the two bounds of the days it denotes, in the configured week;
    the end bound is the last second of the last day, except that ranges ending with a quarter stop
    at the midnight that begins the last day. *)
Theorem C19_ranges num now g w r : numbers r -> valid_day (now / 86400) ->
  valid_day (fst (days_of (week_day w) (now / 86400) py_int r)) -> valid_day (snd (days_of (week_day w) (now / 86400) py_int r)) ->
  filter_dict num now g (VStr (write_rel r)) w =
    (Ok [(EGreaterOrEqual, CTime (midnight (fst (days_of (week_day w) (now / 86400) py_int r))));
         (ELessOrEqual, CTime (let d := snd (days_of (week_day w) (now / 86400) py_int r) in
                               if ends_quarter r then midnight d else last_second d))], default_globals).
Proof. apply filter_rel. Qed.
Print Assumptions C19_ranges.
(** 2024-03-15T12:00: "2 weeks ago for 3 weeks" with weeks from Sunday is 2024-02-25 .. 2024-03-16 *)
Example C19_ranges_case :
  let now := 86400 * (month_start (12 * 2024 + 2) + 14) + 43200 in
  let r := RAgoFor "2" UWeek true "3" UWeek true in
  numbers r /\ valid_day (now / 86400) /\ write_rel r = "2 weeks ago for 3 weeks" /\
  days_of (week_day (Some "sunday")) (now / 86400) py_int r = (month_start (12 * 2024 + 1) + 24, month_start (12 * 2024 + 2) + 15) /\
  valid_day (fst (days_of (week_day (Some "sunday")) (now / 86400) py_int r)) /\ valid_day (snd (days_of (week_day (Some "sunday")) (now / 86400) py_int r)).
Proof.
  cbv zeta. split; [repeat split; try discriminate; cbn; lia|]. split; [unfold valid_day; vm_compute; split; discriminate|].
  split; [reflexivity|]. split; [vm_compute; reflexivity|]. unfold valid_day; vm_compute; repeat split; discriminate.
Qed.

(** The selected instants are those of the selected days. *)
Theorem C19_selects_days a b t : midnight a <= t <= last_second b <-> a <= t / 86400 <= b.
Proof. unfold midnight, last_second. split; intros H; divs. Qed.
Print Assumptions C19_selects_days.
(** Numbers are read as written. *)
Theorem C19_numbers n : is_number (nat_str n) /\ py_int (nat_str n) = Z.of_nat n.
Proof. apply nat_str_number. Qed.
Print Assumptions C19_numbers.
(** The start is not after the end. *)
Theorem C19_start_before_end ws today r : numbers r -> fst (days_of ws today py_int r) <= snd (days_of ws today py_int r).
Proof.
  assert (P : forall u k, first_day ws u k <= last_day ws u k) by (intros u k; unfold last_day; pose proof (first_day_lt ws u k (k + 1)); lia).
  intros N. destruct r as [| |u pl|u pl|n u pl|n u pl|a u pl|n u pl|n u pl n' u' pl']; cbn [days_of fst snd numbers] in *; auto; try lia.
  - destruct N as [_ N]. pose proof (P u (period ws u today)). pose proof (first_day_le ws u (period ws u today - (py_int n - 1)) (period ws u today)). lia.
  - unfold elapsed. cbn [fst snd]. lia.
  - unfold elapsed. cbn [fst snd]. lia.
  - set (a := first_day ws u (period ws u today - py_int n)). pose proof (in_period ws u' a). unfold last_day.
    pose proof (first_day_le ws u' (period ws u' a + 1) (period ws u' a + (py_int n' - 1) + 1)). lia.
Qed.
Print Assumptions C19_start_before_end.
(** Alignment: ranges start with the first day of a period and (but for "to date") end with the last day of one. *)
Definition main_unit (r : rel) : unit_ :=
  match r with RToday | RYesterday => UDay | RThis u _ | RLast u _ | RSome _ u _ | RAgo _ u _ | RToDate _ u _ | RAgoToDate _ u _ | RAgoFor _ u _ _ _ _ => u end.
Definition end_unit (r : rel) : option unit_ :=
  match r with
  | RToday | RYesterday => Some UDay
  | RThis u _ | RLast u _ | RSome _ u _ | RAgo _ u _ => Some u
  | RToDate _ _ _ | RAgoToDate _ _ _ => None
  | RAgoFor _ _ _ _ u _ => Some u
  end.
Theorem C19_aligned ws today r :
  let a := fst (days_of ws today py_int r) in let b := snd (days_of ws today py_int r) in
  period ws (main_unit r) (a - 1) < period ws (main_unit r) a /\
  match end_unit r with Some u => period ws u b < period ws u (b + 1) | None => True end.
Proof.
  assert (A : forall u k, period ws u (first_day ws u k - 1) < period ws u (first_day ws u k)).
  { intros u k. rewrite period_first. pose proof (in_period ws u (first_day ws u k - 1)) as H.
    destruct (Z.lt_ge_cases (period ws u (first_day ws u k - 1)) k) as [|G]; auto.
    apply (first_day_le ws u) in G. lia. }
  assert (B : forall u k, period ws u (last_day ws u k) < period ws u (last_day ws u k + 1)).
  { intros u k. unfold last_day. replace (first_day ws u (k + 1) - 1 + 1) with (first_day ws u (k + 1)) by lia. apply A. }
  destruct r as [| |u pl|u pl|n u pl|n u pl|a u pl|n u pl|n u pl n' u' pl']; cbn [days_of fst snd main_unit end_unit elapsed]; cbv zeta; split; auto;
  cbn [period]; lia.
Qed.
Print Assumptions C19_aligned.
(** "this": today is in it.  "last" and "this" meet without gap or overlap, as do "n ago" and "n-1 ago". *)
Theorem C19_this_last ws today u pl pl' :
  (let '(a, b) := days_of ws today py_int (RThis u pl) in a <= today <= b) /\
  snd (days_of ws today py_int (RLast u pl')) + 1 = fst (days_of ws today py_int (RThis u pl)) /\
  (forall d, period ws u d = period ws u today <-> fst (days_of ws today py_int (RThis u pl)) <= d <= snd (days_of ws today py_int (RThis u pl))) /\
  (forall n m, py_int n = py_int m + 1 ->
     snd (days_of ws today py_int (RAgo n u pl)) + 1 = fst (days_of ws today py_int (RAgo m u pl'))).
Proof.
  cbn [days_of fst snd]. unfold last_day. split; [pose proof (in_period ws u today); lia|].
  split; [replace (period ws u today - 1 + 1) with (period ws u today) by lia; lia|]. split.
  - intros d. split.
    + intros E. pose proof (in_period ws u d). rewrite E in *. lia.
    + intros H. apply period_unique. lia.
  - intros n m E. rewrite E. replace (period ws u today - (py_int m + 1) + 1) with (period ws u today - py_int m) by lia. lia.
Qed.
Print Assumptions C19_this_last.
(** Weeks begin on the configured day, and have seven days. *)
Theorem C19_week_start (w : option string) today pl :
  let ws := week_day w in
  let '(a, b) := days_of ws today py_int (RThis UWeek pl) in
  weekday a = ws /\ b = a + 6.
Proof.
  cbv zeta. cbn [days_of fst snd]. pose proof (week_day_range w) as R. set (ws := week_day w) in *. unfold last_day. cbn [first_day period].
  unfold weekday. split; [|lia]. divs.
Qed.
Print Assumptions C19_week_start.
(** "n units" covers exactly the last n periods, the current one included. *)
Theorem C19_last_n ws today n u pl : numbers (RSome n u pl) -> forall d,
  (fst (days_of ws today py_int (RSome n u pl)) <= d <= snd (days_of ws today py_int (RSome n u pl)) <->
   period ws u today - py_int n < period ws u d <= period ws u today).
Proof.
  intros [_ N] d. cbn [days_of fst snd]. unfold last_day. pose proof (in_period ws u d) as H. set (k := period ws u d) in *. set (t := period ws u today).
  split.
  - intros [A B]. split.
    + destruct (Z.lt_ge_cases (t - py_int n) k); auto. pose proof (first_day_le ws u (k + 1) (t - (py_int n - 1))). lia.
    + destruct (Z.le_gt_cases k t); auto. pose proof (first_day_le ws u (t + 1) k). lia.
  - intros [A B]. pose proof (first_day_le ws u (t - (py_int n - 1)) k). pose proof (first_day_le ws u (k + 1) (t + 1)). lia.
Qed.
Print Assumptions C19_last_n.

(** Findings.  All of the last day of a quarter but its first instant is lost. *)
Theorem C19_quarter_loses_last_day num now g w pl t : valid_day (now / 86400) ->
  let q := period 0 UQuarter (now / 86400) in
  valid_day (first_day 0 UQuarter q) -> valid_day (last_day 0 UQuarter q) ->
  t / 86400 = last_day 0 UQuarter q -> t mod 86400 <> 0 ->
  exists a b, filter_dict num now g (VStr (write_rel (RThis UQuarter pl))) w = (Ok [(EGreaterOrEqual, CTime a); (ELessOrEqual, CTime b)], default_globals) /\ b < t.
Proof.
  intros V q V1 V2 T M. eexists. eexists. split.
  - apply (C19_ranges num now g w (RThis UQuarter pl)); auto; exact I.
  - cbv zeta. cbn [ends_quarter days_of snd]. change (last_day (week_day w) UQuarter (period (week_day w) UQuarter (now / 86400))) with (last_day 0 UQuarter q).
    unfold midnight. divs.
Qed.
Print Assumptions C19_quarter_loses_last_day.
Theorem C19_quarter_end_refuted : exists now num t,
  t / 86400 = now / 86400 /\
  (exists a b, filter_dict num now default_globals (VStr "this quarter") None = (Ok [(EGreaterOrEqual, CTime a); (ELessOrEqual, CTime b)], default_globals) /\ b < t).
Proof.
  exists (86400 * (month_start (12 * 2024 + 3) - 1)), (fun _ => Err ValueError), (86400 * (month_start (12 * 2024 + 3) - 1) + 3600).
  split; [vm_compute; reflexivity|]. eexists. eexists. split; [vm_compute; reflexivity|]. vm_compute. reflexivity.
Qed.
Print Assumptions C19_quarter_end_refuted.
(** "to date" leaves out today, unless today is the first day of the period. *)
Theorem C19_to_date_excludes_today ws today u pl : period ws u (today - 1) = period ws u today ->
  snd (days_of ws today py_int (RToDate ANone u pl)) = today - 1.
Proof.
  intros E. cbn [days_of]. unfold elapsed. cbn [snd]. rewrite Z.sub_0_r. pose proof (in_period ws u (today - 1)) as H. rewrite E in H. lia.
Qed.
Print Assumptions C19_to_date_excludes_today.
(** "0 days" is an empty range. *)
Theorem C19_zero_refuted : exists num now a b,
  filter_dict num now default_globals (VStr "0 days") None = (Ok [(EGreaterOrEqual, CTime a); (ELessOrEqual, CTime b)], default_globals) /\ b < a.
Proof.
  exists (fun _ => Err ValueError), (86400 * 738000). eexists. eexists. split; [vm_compute; reflexivity|]. reflexivity.
Qed.
Print Assumptions C19_zero_refuted.
(** "1 month ago to date" at the end of a long month runs into the current month. *)
Theorem C19_ago_to_date_overruns_refuted : exists today,
  let '(a, b) := days_of 0 today py_int (RAgoToDate "1" UMonth false) in
  period 0 UMonth b <> period 0 UMonth a.
Proof. exists (month_start (12 * 2024 + 2) + 30). vm_compute. discriminate. Qed.
Print Assumptions C19_ago_to_date_overruns_refuted.
(** Two spaces inside "ago to date" lose the end of the range. *)
Theorem C19_double_space_refuted : exists num now a,
  fst (filter_dict num now default_globals (VStr "1 month ago to  date") None) = Ok [(EGreaterOrEqual, CTime a)].
Proof. exists (fun _ => Err ValueError), (86400 * 738000). eexists. vm_compute. reflexivity. Qed.
Print Assumptions C19_double_space_refuted.

(** ** C20 *)
(** A filter's result does not depend on the week setting it finds, whatever happened before. *)
Theorem C20_history_independent num now v w g g' : fst (filter_dict num now g v w) = fst (filter_dict num now g' v w).
Proof.
  unfold filter_dict. destruct (String.eqb (py_str v) ""); [reflexivity|].
  change (set_week_start_day g w) with (set_week_start_day g' w). destruct (parse_date_condition now (set_week_start_day g' w) v); reflexivity.
Qed.
Print Assumptions C20_history_independent.
(** Any sequence of filters, in which some fail after parsing the date part or not at all, leaves the
    default behind as long as no date part fails. *)
Definition filter_call := (fval * option string)%type.
Fixpoint run (num : string -> res Q) (now : Z) (g : globals) (cs : list filter_call) : list (res (list cond)) * globals :=
  match cs with
  | [] => ([], g)
  | (v, w) :: r => let '(x, g1) := filter_dict num now g v w in let '(xs, g2) := run num now g1 r in (x :: xs, g2)
  end.
Theorem C20_histories num now cs : forall g,
  fst (run num now g cs) = map (fun c => fst (filter_dict num now default_globals (fst c) (snd c))) cs.
Proof.
  induction cs as [|[v w] cs IH]; intros g; [reflexivity|]. simpl.
  pose proof (C20_history_independent num now v w g default_globals) as H.
  destruct (filter_dict num now g v w) as [x g1]. specialize (IH g1). destruct (run num now g1 cs) as [xs g2]. simpl in *. congruence.
Qed.
Print Assumptions C20_histories.
Theorem C20_default_restored num now cs :
  (forall v w, In (v, w) cs -> exists dc, parse_date_condition now (set_week_start_day default_globals w) v = Ok dc) ->
  snd (run num now default_globals cs) = default_globals.
Proof.
  induction cs as [|[v w] cs IH]; intros H; [reflexivity|]. cbn [run]. unfold filter_dict.
  destruct (H v w (or_introl eq_refl)) as [dc E].
  assert (G : snd (run num now default_globals cs) = default_globals) by (apply IH; intros; apply H; right; auto).
  destruct (String.eqb (py_str v) "").
  - destruct (run num now default_globals cs). exact G.
  - rewrite E. change (reset_week_start_day (set_week_start_day default_globals w)) with default_globals.
    destruct (run num now default_globals cs). exact G.
Qed.
Print Assumptions C20_default_restored.
Theorem C20_success num now v w cs : fst (filter_dict num now default_globals v w) = Ok cs -> snd (filter_dict num now default_globals v w) = default_globals.
Proof.
  unfold filter_dict. destruct (String.eqb (py_str v) ""); [reflexivity|].
  destruct (parse_date_condition now (set_week_start_day default_globals w) v); [reflexivity|discriminate].
Qed.
Print Assumptions C20_success.
Example C20_case : let cs := [(VStr "last week", Some "sunday"); (VStr "a, -b", Some "friday"); (VStr "3 months to date", None)] in
  snd (run (fun _ => Err ValueError) (86400 * 738000) default_globals cs) = default_globals /\
  List.length (fst (run (fun _ => Err ValueError) (86400 * 738000) default_globals cs)) = 3%nat.
Proof. split; vm_compute; reflexivity. Qed.
(** An exception in the date part leaves the other week start behind for the whole process. *)
Theorem C20_exception_leaks_refuted num : exists v now w,
  fst (filter_dict num now default_globals v w) = Err ValueError /\ snd (filter_dict num now default_globals v w) <> default_globals.
Proof. exists (VStr "last week until tomorrow"), (86400 * 738000), (Some "sunday"). split; [vm_compute; reflexivity|]. vm_compute. discriminate. Qed.
Print Assumptions C20_exception_leaks_refuted.
