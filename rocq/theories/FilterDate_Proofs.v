From Verif Require Import PyBase PyStr PyReplace PyRx PyDate Core_Model Filter_Model FilterDate_Spec.
Local Open Scope string_scope.
Local Open Scope list_scope.
Local Open Scope Z_scope.

(** ** Periods *)
Definition raw_add (d : Z) (u : unit_) (n : Z) : Z :=
  match u with
  | UDay => d + n | UWeek => d + 7 * n | UMonth => add_months d n | UQuarter => add_months d (3 * n) | UYear => add_months d (12 * n)
  end.
Definition week_globals (ws : Z) : globals := Globals ws (if ws =? 0 then 6 else ws - 1).
Lemma in_period ws u d : first_day ws u (period ws u d) <= d < first_day ws u (period ws u d + 1).
Proof.
  destruct u; cbn [first_day period].
  - lia.
  - divs.
  - apply month_of_spec.
  - pose proof (month_of_spec d). pose proof (month_start_le (3 * (month_of d / 3)) (month_of d)).
    pose proof (month_start_le (month_of d + 1) (3 * (month_of d / 3 + 1))).
    assert (3 * (month_of d / 3) <= month_of d < 3 * (month_of d / 3 + 1)) by divs. lia.
  - pose proof (month_of_spec d). pose proof (month_start_le (12 * (month_of d / 12)) (month_of d)).
    pose proof (month_start_le (month_of d + 1) (12 * (month_of d / 12 + 1))).
    assert (12 * (month_of d / 12) <= month_of d < 12 * (month_of d / 12 + 1)) by divs. lia.
Qed.
Lemma first_day_le ws u a b : a <= b -> first_day ws u a <= first_day ws u b.
Proof. intros L. destruct u; cbn [first_day period raw_add g_starts g_ends week_globals]; try lia; apply month_start_le; lia. Qed.
Lemma first_day_lt ws u a b : a < b -> first_day ws u a < first_day ws u b.
Proof.
  intros L. destruct u; cbn [first_day period raw_add g_starts g_ends week_globals]; try lia.
  - pose proof (month_start_lt a b); lia.
  - pose proof (month_start_lt (3 * a) (3 * b)); lia.
  - pose proof (month_start_lt (12 * a) (12 * b)); lia.
Qed.
Lemma period_unique ws u d k : first_day ws u k <= d < first_day ws u (k + 1) -> period ws u d = k.
Proof.
  intros H. pose proof (in_period ws u d) as P. set (k' := period ws u d) in *.
  destruct (Z.lt_trichotomy k' k) as [L|[L|L]]; auto.
  - pose proof (first_day_le ws u (k' + 1) k). lia.
  - pose proof (first_day_le ws u (k + 1) k'). lia.
Qed.
Lemma period_first ws u k : period ws u (first_day ws u k) = k.
Proof. apply period_unique. pose proof (first_day_lt ws u k (k + 1)). lia. Qed.
Lemma period_add ws u d n : period ws u (raw_add d u n) = period ws u d + n.
Proof.
  destruct u; cbn [first_day period raw_add g_starts g_ends week_globals]; auto.
  - divs.
  - apply month_of_add_months.
  - rewrite month_of_add_months. replace (month_of d + 3 * n) with (month_of d + n * 3) by lia. apply Z.div_add. lia.
  - rewrite month_of_add_months. replace (month_of d + 12 * n) with (month_of d + n * 12) by lia. apply Z.div_add. lia.
Qed.
Lemma in_range_ok d : valid_day d -> in_range d = Ok d.
Proof. unfold valid_day, in_range. intros [A B]. apply Z.leb_le in A. apply Z.leb_le in B. rewrite A, B. reflexivity. Qed.
Lemma valid_between a b d : valid_day a -> valid_day b -> a <= d <= b -> valid_day d.
Proof.
  unfold valid_day. intros A B [L R]. apply month_of_mono in L. apply month_of_mono in R.
  pose proof (Z.div_le_mono _ _ 12 ltac:(lia) L). pose proof (Z.div_le_mono _ _ 12 ltac:(lia) R). lia.
Qed.
Lemma start_of_spec ws u d : 0 <= ws < 7 -> valid_day (first_day ws u (period ws u d)) ->
  start_of (week_globals ws) u d = Ok (midnight (first_day ws u (period ws u d))).
Proof.
  intros W V. unfold start_of.
  assert (E : match u with
                 | UDay => d
                 | UWeek => if weekday d =? g_starts (week_globals ws) then d else previous d (g_starts (week_globals ws))
                 | UMonth => month_start (month_of d)
                 | UQuarter => month_start (month_of d / 3 * 3)
                 | UYear => month_start (month_of d / 12 * 12)
                 end = first_day ws u (period ws u d)).
  { destruct u; cbn [first_day period raw_add g_starts g_ends week_globals]; auto.
    - unfold previous, weekday. destruct ((d + 5) mod 7 =? ws) eqn:E; [apply Z.eqb_eq in E; divs|]. apply Z.eqb_neq in E.
      destruct (((d + 5) mod 7 - ws) mod 7 =? 0) eqn:F; [apply Z.eqb_eq in F|apply Z.eqb_neq in F]; divs.
    - f_equal. lia.
    - f_equal. lia. }
  rewrite E, in_range_ok by auto. cbn [bind]. unfold midnight, day_secs. f_equal. lia.
Qed.
Definition closing (ws : Z) (u : unit_) (k : Z) : Z :=
  match u with UQuarter => midnight (last_day ws u k) | _ => last_second (last_day ws u k) end.
Lemma end_of_spec ws u d : 0 <= ws < 7 -> valid_day (last_day ws u (period ws u d)) ->
  end_of (week_globals ws) u d = Ok (closing ws u (period ws u d)).
Proof.
  intros W V. unfold end_of.
  assert (E : match u with
                 | UDay => d
                 | UWeek => if weekday d =? g_ends (week_globals ws) then d else next d (g_ends (week_globals ws))
                 | UMonth => month_start (month_of d + 1) - 1
                 | UQuarter => month_start (month_of d / 3 * 3 + 3) - 1
                 | UYear => month_start (month_of d / 12 * 12 + 12) - 1
                 end = last_day ws u (period ws u d)).
  { unfold last_day. destruct u; cbn [first_day period raw_add g_starts g_ends week_globals]; try lia.
    - unfold next, weekday. destruct (ws =? 0) eqn:Z0; [apply Z.eqb_eq in Z0|apply Z.eqb_neq in Z0].
      + destruct ((d + 5) mod 7 =? 6) eqn:E; [apply Z.eqb_eq in E; divs|]. apply Z.eqb_neq in E.
        destruct ((6 - (d + 5) mod 7) mod 7 =? 0) eqn:F; [apply Z.eqb_eq in F|apply Z.eqb_neq in F]; divs.
      + destruct ((d + 5) mod 7 =? ws - 1) eqn:E; [apply Z.eqb_eq in E; divs|]. apply Z.eqb_neq in E.
        destruct ((ws - 1 - (d + 5) mod 7) mod 7 =? 0) eqn:F; [apply Z.eqb_eq in F|apply Z.eqb_neq in F]; divs.
    - replace (3 * (month_of d / 3 + 1)) with (month_of d / 3 * 3 + 3) by lia. reflexivity.
    - replace (12 * (month_of d / 12 + 1)) with (month_of d / 12 * 12 + 12) by lia. reflexivity. }
  rewrite E, in_range_ok by auto. cbn [bind]. unfold closing, midnight, last_second, day_secs. f_equal. destruct u; lia.
Qed.
Lemma add_units_ok d u n : valid_day (raw_add d u n) -> add_units d u n = Ok (raw_add d u n).
Proof. intros V. unfold add_units. replace (match u with UDay => d + n | UWeek => d + 7 * n | UMonth => add_months d n | UQuarter => add_months d (3 * n) | UYear => add_months d (12 * n) end) with (raw_add d u n) by (destruct u; reflexivity). apply in_range_ok; auto. Qed.

(** A moved date lies in the period it was moved to *)
Lemma raw_add_in ws u d n : first_day ws u (period ws u d + n) <= raw_add d u n <= last_day ws u (period ws u d + n).
Proof. pose proof (in_period ws u (raw_add d u n)) as H. rewrite period_add in H. unfold last_day. lia. Qed.

Section Dates.
  Variable ws now : Z.
  Hypothesis HW : 0 <= ws < 7.
  Let today := now / 86400.
  Lemma start_date_spec u part lag : unit_of part = Ok u ->
    valid_day (raw_add today u (- lag)) -> valid_day (first_day ws u (period ws u today - lag)) ->
    start_date (week_globals ws) now lag part = Ok (midnight (first_day ws u (period ws u today - lag))).
  Proof.
    intros U V F. unfold start_date. rewrite U. cbn [bind]. change (now / day_secs) with today. rewrite add_units_ok by auto. cbn [bind].
    pose proof (period_add ws u today (- lag)) as P. rewrite start_of_spec; auto; rewrite P; auto.
  Qed.
  Lemma end_date_spec u part lag : unit_of part = Ok u ->
    valid_day (raw_add today u (- lag)) -> valid_day (last_day ws u (period ws u today - lag)) ->
    end_date (week_globals ws) now lag part = Ok (closing ws u (period ws u today - lag)).
  Proof.
    intros U V F. unfold end_date. rewrite U. cbn [bind]. change (now / day_secs) with today. rewrite add_units_ok by auto. cbn [bind].
    pose proof (period_add ws u today (- lag)) as P. rewrite end_of_spec; auto; rewrite P; auto.
  Qed.
  Lemma add_to_end_date_spec u part d lag : unit_of part = Ok u ->
    valid_day (raw_add d u lag) -> valid_day (last_day ws u (period ws u d + lag)) ->
    add_to_end_date (week_globals ws) (midnight d) lag part = Ok (closing ws u (period ws u d + lag)).
  Proof.
    intros U V F. unfold add_to_end_date. rewrite U. cbn [bind].
    replace (midnight d / day_secs) with d by (unfold midnight, day_secs; divs). rewrite add_units_ok by auto. cbn [bind].
    pose proof (period_add ws u d lag) as P. rewrite end_of_spec; auto; rewrite P; auto.
  Qed.
End Dates.

(** ** The regular expressions on the canonical forms *)
Definition ext (c : list (nat * string)) (t : string) (m : rmatch) : rmatch := let '(c2, t2, r2) := m in (c ++ c2, (t ++ t2)%string, r2).
Lemma rm_seq a b s : rm (RSeq a b) s = flat_map (fun m => let '(c, t, r) := m in map (ext c t) (rm b r)) (rm a s).
Proof. reflexivity. Qed.
Lemma rm_seq_lit l X r : rm (RSeq (RLit l) X) (l ++ r) = map (ext [] l) (rm X r).
Proof. rewrite rm_seq. cbn [rm]. rewrite strip_prefix_app. cbn [flat_map]. rewrite app_nil_r. reflexivity. Qed.
Lemma plus_head p q : head_is p q = false -> plus_splits p q = [].
Proof. destruct q as [|c q]; simpl; auto. intros ->. reflexivity. Qed.
Lemma rm_spaces X r : head_is is_space r = false -> rm (RSeq r_spaces X) (String " " r) = map (ext [] " ") (rm X r).
Proof.
  intros H. rewrite rm_seq. unfold r_spaces. cbn [rm]. cbn [plus_splits]. change (is_space " ") with true. cbv iota.
  rewrite plus_head by auto. cbn [map app flat_map]. rewrite app_nil_r. reflexivity.
Qed.
Lemma rm_spaces_no X r : head_is is_space r = false -> rm (RSeq r_spaces X) r = [].
Proof. intros H. rewrite rm_seq. unfold r_spaces. cbn [rm]. rewrite plus_head by auto. reflexivity. Qed.
Lemma digit_not_space c : is_digit c = true -> is_space c = false.
Proof. destruct c as [[] [] [] [] [] [] [] []]; vm_compute; auto. Qed.
Lemma rm_digits_gen (f : rmatch -> list rmatch) d r : all_p is_digit d = true -> d <> "" -> head_is is_digit r = false ->
  (forall t q, head_is is_digit q = true -> f ([], t, q) = []) ->
  flat_map f (rm r_digits (d ++ r)) = f ([], d, r).
Proof.
  intros A N H F. unfold r_digits. cbn [rm]. destruct (plus_splits_run is_digit d r A N H) as [l [E I]]. rewrite E. simpl.
  assert (Z : flat_map f (map (fun y => ([], fst y, snd y)) l) = []).
  { clear E. induction l as [|[t q] l IH]; simpl; auto. rewrite F; [|apply (I t); left; auto]. simpl. apply IH. intros t' q' J. apply (I t'). right; auto. }
  rewrite Z. apply app_nil_r.
Qed.
Lemma flat_map_map {A B C} (f : B -> list C) (h : A -> B) l : flat_map f (map h l) = flat_map (fun x => f (h x)) l.
Proof. induction l; simpl; congruence. Qed.
Lemma digit_head_space q : head_is is_digit q = true -> head_is is_space q = false.
Proof. destruct q as [|c q]; simpl; [discriminate|]. apply digit_not_space. Qed.
(** (\d+)\s+X and (\d+\s+)X *)
Lemma rm_digits n X d r : is_number d -> head_is is_digit r = false ->
  rm (RSeq (RGrp n r_digits) (RSeq r_spaces X)) (d ++ r) = map (ext [(n, d)] d) (rm (RSeq r_spaces X) r).
Proof.
  intros [A N] H. rewrite rm_seq. change (rm (RGrp n r_digits) (d ++ r)) with (map (fun m : rmatch => let '(c, t, r) := m in (c ++ [(n, t)], t, r)) (rm r_digits (d ++ r))).
  rewrite flat_map_map. rewrite rm_digits_gen; auto. intros t q Q. rewrite rm_spaces_no; auto. apply digit_head_space; auto.
Qed.
Lemma rm_digits_spaces d r : is_number d -> head_is is_space r = false -> rm (RSeq r_digits r_spaces) (d ++ String " " r) = [([], (d ++ " ")%string, r)].
Proof.
  intros [A N] H. rewrite rm_seq. rewrite rm_digits_gen; auto.
  - unfold r_spaces. cbn [rm]. cbn [plus_splits]. change (is_space " ") with true. cbv iota. rewrite plus_head by auto. reflexivity.
  - intros t q Q. unfold r_spaces. cbn [rm]. rewrite plus_head; auto. apply digit_head_space; auto.
Qed.
(** (interval)\s+X *)
Lemma rm_interval_spaces n X u pl r : head_is is_space r = false ->
  rm (RSeq (r_interval n) (RSeq r_spaces X)) (word u pl ++ String " " r) = map (ext [(n, word u pl)] (word u pl)) (rm (RSeq r_spaces X) (String " " r)).
Proof.
  intros H. rewrite rm_seq.
  assert (E : rm (r_interval n) (word u pl ++ String " " r) =
              (if pl then [([(n, word u false)], word u false, String "s" (String " " r))] else []) ++ [([(n, word u pl)], word u pl, String " " r)]).
  { destruct u, pl; reflexivity. }
  rewrite E, flat_map_app. cbn [flat_map]. rewrite app_nil_r.
  destruct pl; reflexivity.
Qed.
(** (interval) at the end: the singular alternative wins *)
Lemma rm_interval_end n u pl : exists l, rm (r_interval n) (word u pl) = ([(n, word u false)], word u false, if pl then "s" else "") :: l.
Proof. destruct u, pl; eexists; reflexivity. Qed.
Lemma word_head u pl r : head_is is_space (word u pl ++ r) = false /\ head_is is_digit (word u pl ++ r) = false.
Proof. destruct u, pl; split; reflexivity. Qed.
Lemma number_head d r : is_number d -> head_is is_space (d ++ r) = false.
Proof. intros [A N]. destruct d as [|c d]; [congruence|]. simpl in *. apply andb_true_iff in A. apply digit_not_space. tauto. Qed.
Lemma unit_of_word u pl : unit_of (word u pl) = Ok u.
Proof. destruct u, pl; reflexivity. Qed.

Lemma contains_sub p q s : contains p q = true -> contains p s = false -> contains q s = false.
Proof.
  intros P S. destruct (contains q s) eqn:E; auto. rewrite contains_spec in P, E. destruct P as [a [b ->]]. destruct E as [x [y ->]].
  assert (C : contains p (x ++ (a ++ p ++ b) ++ y) = true).
  { apply contains_spec. exists (x ++ a)%string, (b ++ y)%string. rewrite !append_assoc. reflexivity. }
  congruence.
Qed.
(** A text that does not start with a digit cannot start inside a run of digits *)
Lemma contains_digits p c d r : is_digit c = false -> all_p is_digit d = true -> contains (String c p) (d ++ r) = contains (String c p) r.
Proof.
  intros C. induction d as [|a d IH]; intros A; auto. simpl in A. apply andb_true_iff in A. destruct A as [A1 A2]. simpl append.
  cbn [contains]. rewrite IH by auto. unfold starts_with. cbn [strip_prefix].
  destruct (Ascii.eqb c a) eqn:E; auto. apply Ascii.eqb_eq in E. congruence.
Qed.

Lemma rsearch_head x s c t r l : rm x s = (c, t, r) :: l -> rsearch x s = Some c.
Proof. intros E. destruct s; simpl; rewrite E; reflexivity. Qed.
Lemma search_n_interval d u pl : is_number d ->
  rsearch rx_n_interval (d ++ " " ++ word u pl) = Some [(1%nat, d); (2%nat, word u false)].
Proof.
  intros D.
  destruct (rm_interval_end 2 u pl) as [l L].
  assert (W : head_is is_space (word u pl) = false) by (destruct (word_head u pl "") as [W _]; rewrite append_nil_r in W; exact W).
  unfold rx_n_interval. eapply rsearch_head. rewrite rm_seq.
  change (rm (RGrp 1 (RAlt r_digits (RAlt (RLit "this") (RLit "last")))) (d ++ " " ++ word u pl)) with
    (map (fun m : rmatch => let '(c, t, r) := m in (c ++ [(1%nat, t)], t, r)) (rm r_digits (d ++ " " ++ word u pl) ++ rm (RAlt (RLit "this") (RLit "last")) (d ++ " " ++ word u pl))).
  rewrite flat_map_map, flat_map_app. destruct D as [A N]. rewrite rm_digits_gen; auto.
  - change (" " ++ word u pl)%string with (String " " (word u pl)). rewrite rm_spaces by auto. rewrite L. reflexivity.
  - intros t q Q. rewrite rm_spaces_no; auto. apply digit_head_space; auto.
Qed.
Lemma search_modifier d u pl (m : string) : is_number d -> In m ["ago"; "to date"; "ago to date"] ->
  rsearch rx_modifier (d ++ " " ++ word u pl ++ " " ++ m) = Some [(1%nat, (d ++ " ")%string); (2%nat, word u pl); (3%nat, m)].
Proof.
  intros D M.
  assert (H : exists t r l, rm rx_modifier (d ++ " " ++ word u pl ++ " " ++ m) = ([(1%nat, (d ++ " ")%string); (2%nat, word u pl); (3%nat, m)], t, r) :: l).
  { unfold rx_modifier. rewrite rm_seq.
    match goal with |- context [rm (RGrp 1 (RAlt ?a ?b)) ?s] => change (rm (RGrp 1 (RAlt a b)) s) with
      (map (fun m : rmatch => let '(c, t, r) := m in (c ++ [(1%nat, t)], t, r)) (rm a s ++ rm b s)) end.
    change (d ++ " " ++ word u pl ++ " " ++ m)%string with (d ++ String " " (word u pl ++ String " " m))%string.
    destruct (word_head u pl (String " " m)) as [W _].
    rewrite rm_digits_spaces by auto. cbn [map app flat_map].
    assert (HM : head_is is_space m = false) by (destruct M as [<-|[<-|[<-|[]]]]; reflexivity).
    rewrite rm_interval_spaces, rm_spaces by auto.
    destruct M as [<-|[<-|[<-|[]]]]; eexists; eexists; eexists; reflexivity. }
  destruct H as [t [r [l H]]]. eapply rsearch_head. exact H.
Qed.
Lemma search_ago_for d u pl d' u' pl' : is_number d -> is_number d' ->
  rsearch rx_ago_for (d ++ " " ++ word u pl ++ " ago for " ++ d' ++ " " ++ word u' pl') =
    Some [(1%nat, d); (2%nat, word u pl); (3%nat, d'); (4%nat, word u' false)].
Proof.
  intros D D'. destruct (rm_interval_end 4 u' pl') as [l L]. unfold rx_ago_for. eapply rsearch_head.
  change (d ++ " " ++ word u pl ++ " ago for " ++ d' ++ " " ++ word u' pl')%string with
    (d ++ String " " (word u pl ++ String " " ("ago" ++ String " " ("for" ++ String " " (d' ++ String " " (word u' pl'))))))%string.
  rewrite rm_digits by auto. rewrite rm_spaces by apply word_head. rewrite rm_interval_spaces by reflexivity.
  rewrite rm_spaces by reflexivity. rewrite rm_seq_lit. rewrite rm_spaces by reflexivity. rewrite rm_seq_lit.
  rewrite rm_spaces by (apply number_head; auto). rewrite rm_digits by auto.
  rewrite rm_spaces by (destruct u', pl'; reflexivity). rewrite L. reflexivity.
Qed.
(** *** The other expressions do not match *)
Lemma no_ago_for s : contains "for" s = false -> rsearch rx_ago_for s = None.
Proof. intros C. apply (rsearch_none _ _ ["for"]); [simpl; tauto|]. intros l [<-|[]]. auto. Qed.
Lemma no_modifier s : contains "ago" s = false -> contains "to" s = false -> rsearch rx_modifier s = None.
Proof. intros C C'. apply (rsearch_none _ _ ["ago"; "ago"; "to"]); [simpl; tauto|]. intros l [<-|[<-|[<-|[]]]]; auto. Qed.
Lemma strip_number d : is_number d -> strip (d ++ " ") = d.
Proof.
  intros [A N]. unfold strip.
  assert (R : rstrip (d ++ " ") = d).
  { induction d as [|c d IH]; [congruence|]. simpl in A. apply andb_true_iff in A. destruct A as [A1 A2]. apply digit_not_space in A1.
    destruct d as [|c' d].
    - simpl. rewrite A1. reflexivity.
    - change (String c (String c' d) ++ " ")%string with (String c (String c' d ++ " ")). cbn [rstrip]. rewrite IH; auto. discriminate. }
  rewrite R. destruct d as [|c d]; [congruence|]. simpl in *. apply andb_true_iff in A. destruct A as [A1 _]. apply digit_not_space in A1.
  rewrite A1. reflexivity.
Qed.
Lemma number_not_word d : is_number d -> String.eqb d "this" = false /\ String.eqb d "last" = false /\ String.eqb d "" = false.
Proof.
  intros [A N]. destruct d as [|c d]; [congruence|]. simpl in A. apply andb_true_iff in A. destruct A as [A _].
  assert (forall x r, is_digit x = false -> String.eqb (String c d) (String x r) = false) as F.
  { intros x r X. apply String.eqb_neq. intros E. injection E as -> ->. congruence. }
  repeat split; auto; apply F; reflexivity.
Qed.
Lemma int_acc_nonneg s : forall acc, all_p is_digit s = true -> 0 <= acc -> 0 <= int_acc acc s.
Proof.
  induction s as [|c s IH]; intros acc A P; cbn [int_acc]; auto. cbn [all_p] in A. apply andb_true_iff in A. destruct A as [A1 A2]. apply IH; auto.
  unfold is_digit in A1. apply andb_true_iff in A1. destruct A1 as [A1 _]. apply Nat.leb_le in A1. unfold digit_val. lia.
Qed.
Lemma number_nonneg d : is_number d -> 0 <= py_int d.
Proof. intros [A _]. apply int_acc_nonneg; auto. lia. Qed.
Lemma raw_add_0 d u : raw_add d u 0 = d.
Proof.
  assert (M : add_months d 0 = d).
  { unfold add_months, day_of. rewrite Z.add_0_r. pose proof (month_of_spec d). unfold days_in_month. lia. }
  destruct u; cbn [raw_add]; auto; lia.
Qed.
Lemma raw_add_ge (ws : Z) d u n : 0 <= n -> d <= raw_add d u n.
Proof.
  intros P. destruct (Z.eq_dec n 0) as [->|N]; [rewrite raw_add_0; lia|].
  pose proof (raw_add_in ws u d n). pose proof (in_period ws u d). pose proof (first_day_le ws u (period ws u d + 1) (period ws u d + n)). lia.
Qed.
Lemma raw_add_le (ws : Z) d u n : 0 <= n -> raw_add d u (- n) <= d.
Proof.
  intros P. destruct (Z.eq_dec n 0) as [->|N]; [rewrite raw_add_0; lia|].
  pose proof (raw_add_in ws u d (- n)). pose proof (in_period ws u d). unfold last_day in *.
  pose proof (first_day_le ws u (period ws u d + - n + 1) (period ws u d)). lia.
Qed.

(** ** The parser on the canonical forms *)
Definition finish (r : rel) (d : Z) : Z := if ends_quarter r then midnight d else last_second d.
Lemma number_text d r : is_number d -> String.eqb (d ++ r) "today" = false /\ String.eqb (d ++ r) "yesterday" = false /\
  ~ In (d ++ r)%string [""; "NULL"; "-NULL"; "TRUE"; "FALSE"].
Proof.
  intros [A N]. destruct d as [|c d]; [congruence|]. simpl in A. apply andb_true_iff in A. destruct A as [A _].
  assert (F : forall x y, is_digit x = false -> (String c d ++ r)%string = String x y -> False).
  { intros x y X E. injection E as -> _. congruence. }
  split; [apply String.eqb_neq; intros E; revert E; apply F; reflexivity|].
  split; [apply String.eqb_neq; intros E; revert E; apply F; reflexivity|].
  intros [E|[E|[E|[E|[E|[]]]]]]; try discriminate; symmetry in E; revert E; apply F; reflexivity.
Qed.
Section Parse.
  Variable ws now : Z.
  Hypothesis HW : 0 <= ws < 7.
  Let today := now / 86400.
  Let G := week_globals ws.

  Lemma start_back u part lag : unit_of part = Ok u -> 0 <= lag -> valid_day today -> valid_day (first_day ws u (period ws u today - lag)) ->
    start_date G now lag part = Ok (midnight (first_day ws u (period ws u today - lag))).
  Proof.
    intros U L T V. apply start_date_spec; auto. fold today. eapply valid_between; [exact V|exact T|].
    pose proof (raw_add_in ws u today (- lag)). pose proof (raw_add_le ws today u lag L).
    replace (period ws u today + - lag) with (period ws u today - lag) in * by lia. lia.
  Qed.
  Lemma end_back u part lag : unit_of part = Ok u -> 0 <= lag -> valid_day today -> valid_day (first_day ws u (period ws u today - lag)) ->
    valid_day (last_day ws u (period ws u today - lag)) ->
    end_date G now lag part = Ok (closing ws u (period ws u today - lag)).
  Proof.
    intros U L T V V'. apply end_date_spec; auto. fold today. eapply valid_between; [exact V|exact T|].
    pose proof (raw_add_in ws u today (- lag)). pose proof (raw_add_le ws today u lag L).
    replace (period ws u today + - lag) with (period ws u today - lag) in * by lia. lia.
  Qed.
  (** The current period lies between an earlier one and today *)
  Lemma valid_here u lag : 0 <= lag -> valid_day today -> valid_day (first_day ws u (period ws u today - lag)) ->
    valid_day (first_day ws u (period ws u today)).
  Proof.
    intros L T V. eapply valid_between; [exact V|exact T|]. pose proof (in_period ws u today).
    pose proof (first_day_le ws u (period ws u today - lag) (period ws u today)). lia.
  Qed.
  Lemma end_here u part lag : unit_of part = Ok u -> 0 <= lag -> valid_day today -> valid_day (first_day ws u (period ws u today - lag)) ->
    valid_day (last_day ws u (period ws u today)) ->
    end_date G now 0 part = Ok (closing ws u (period ws u today)).
  Proof.
    intros U L T V V'. pose proof (valid_here u lag L T V) as H.
    rewrite (end_back u part 0); auto; try lia; rewrite Z.sub_0_r; auto.
  Qed.
  (** The end of a "to date" range *)
  Lemma elapsed_end u part lag : unit_of part = Ok u -> 0 <= lag -> valid_day today -> valid_day (first_day ws u (period ws u today - lag)) ->
    valid_day (snd (elapsed ws u today (period ws u today - lag))) ->
    (p <- start_date G now 0 part ;;
     let days := (now - p) / day_secs in
     let l := if 0 <? days then days - 1 else 0 in
     add_to_end_date G (midnight (first_day ws u (period ws u today - lag))) l "day") =
    Ok (last_second (snd (elapsed ws u today (period ws u today - lag)))).
  Proof.
    intros U L T V V'. pose proof (valid_here u lag L T V) as H.
    rewrite (start_back u part 0); auto; try lia; rewrite Z.sub_0_r; auto. cbn [bind]. cbv zeta.
    set (p := first_day ws u (period ws u today)) in *.
    assert (D : (now - midnight p) / day_secs = today - p).
    { unfold midnight, day_secs, today. replace (now - 86400 * p) with (now + (- p) * 86400) by lia. rewrite Z.div_add by lia. lia. }
    rewrite D. set (l := if 0 <? today - p then today - p - 1 else 0).
    assert (EL : l = Z.max 0 (today - p - 1)) by (unfold l; destruct (0 <? today - p) eqn:E; [apply Z.ltb_lt in E|apply Z.ltb_ge in E]; lia).
    unfold elapsed in *. cbn [snd] in *. fold p in V' |- *. rewrite <- EL in *.
    set (a := first_day ws u (period ws u today - lag)) in *.
    rewrite (add_to_end_date_spec ws now HW UDay "day"); auto.
    - cbn [closing period]. unfold last_day. cbn [first_day]. do 2 f_equal. lia.
    - cbn [period]. unfold last_day. cbn [first_day]. replace (a + l + 1 - 1) with (a + l) by lia. auto.
  Qed.

  (** The modifier branch *)
  Definition modifier_result (n part md : string) : res (option (list cond)) :=
    let lag := if String.eqb n "this" || String.eqb n "" then 0
               else if String.eqb n "last" then 1
               else if String.eqb md "to date" then py_int n - 1
               else py_int n in
    a <- start_date G now lag part ;;
    if String.eqb md "ago to date" || String.eqb md "to date" then
      p <- start_date G now 0 part ;;
      let days := (now - p) / day_secs in
      let lag := if 0 <? days then days - 1 else 0 in
      b <- add_to_end_date G a lag "day" ;;
      Ok (Some [(EGreaterOrEqual, CTime a); (ELessOrEqual, CTime b)])
    else if String.eqb md "ago" then
      b <- end_date G now lag part ;;
      Ok (Some [(EGreaterOrEqual, CTime a); (ELessOrEqual, CTime b)])
    else Ok (Some [(EGreaterOrEqual, CTime a)]).
  Lemma modifier_some n part md : (exists l, modifier_result n part md = Ok (Some l)) \/ exists e, modifier_result n part md = Err e.
  Proof.
    unfold modifier_result. cbv zeta.
    match goal with |- context [start_date G now ?l part] => destruct (start_date G now l part) as [a|e]; [cbn [bind]|right; exists e; reflexivity] end.
    destruct (String.eqb md "ago to date" || String.eqb md "to date").
    - destruct (start_date G now 0 part) as [q|e]; [cbn [bind]|right; exists e; reflexivity].
      match goal with |- context [add_to_end_date G a ?l "day"] => destruct (add_to_end_date G a l "day") as [b|e]; [cbn [bind]|right; exists e; reflexivity] end.
      left. eexists. reflexivity.
    - destruct (String.eqb md "ago").
      + match goal with |- context [end_date G now ?l part] => destruct (end_date G now l part) as [b|e]; [cbn [bind]|right; exists e; reflexivity] end.
        left. eexists. reflexivity.
      + left. eexists. reflexivity.
  Qed.
  Lemma modifier_branch s g1 part md : String.eqb s "today" = false -> String.eqb s "yesterday" = false ->
    rsearch rx_ago_for s = None -> rsearch rx_modifier s = Some [(1%nat, g1); (2%nat, part); (3%nat, md)] ->
    parse_simple now G s = modifier_result (strip g1) part md.
  Proof.
    intros T1 T2 A M. unfold parse_simple. rewrite T1, T2. unfold parse_ago_for. rewrite A. cbn [bind]. unfold parse_modifier. rewrite M.
    match goal with |- context [group 1 ?l] => change (group 1 l) with g1; change (group 2 l) with part; change (group 3 l) with md end.
    change (bind (modifier_result (strip g1) part md) (fun r2 => match r2 with Some _ => Ok r2 | None => parse_n_interval now G s end) = modifier_result (strip g1) part md).
    destruct (modifier_some (strip g1) part md) as [[l E]|[e E]]; rewrite E; reflexivity.
  Qed.
  Lemma parse_number_modifier n u pl md : is_number n -> In md ["ago"; "to date"; "ago to date"] -> contains "for" (" " ++ word u pl ++ " " ++ md) = false ->
    parse_simple now G (n ++ " " ++ word u pl ++ " " ++ md) =
    (let lag := if String.eqb md "to date" then py_int n - 1 else py_int n in
     a <- start_date G now lag (word u pl) ;;
     if String.eqb md "ago to date" || String.eqb md "to date" then
       p <- start_date G now 0 (word u pl) ;;
       let days := (now - p) / day_secs in
       let lag := if 0 <? days then days - 1 else 0 in
       b <- add_to_end_date G a lag "day" ;;
       Ok (Some [(EGreaterOrEqual, CTime a); (ELessOrEqual, CTime b)])
     else if String.eqb md "ago" then
       b <- end_date G now lag (word u pl) ;;
       Ok (Some [(EGreaterOrEqual, CTime a); (ELessOrEqual, CTime b)])
     else Ok (Some [(EGreaterOrEqual, CTime a)])).
  Proof.
    intros N M F. destruct (number_text n (" " ++ word u pl ++ " " ++ md) N) as [T1 [T2 _]].
    rewrite (modifier_branch _ (n ++ " ") (word u pl) md); auto.
    - rewrite strip_number by auto. unfold modifier_result. destruct (number_not_word n N) as [W1 [W2 W3]]. rewrite W1, W2, W3. reflexivity.
    - apply no_ago_for. rewrite contains_digits; auto. apply N.
    - apply search_modifier; auto.
  Qed.
  Lemma parse_plain_modifier s n u pl : String.eqb s "today" = false -> String.eqb s "yesterday" = false ->
    rsearch rx_ago_for s = None -> rsearch rx_modifier s = Some [(1%nat, if String.eqb n "" then "" else (n ++ " ")%string); (2%nat, word u pl); (3%nat, "to date")] ->
    strip (if String.eqb n "" then "" else (n ++ " ")%string) = n ->
    parse_simple now G s =
    (let lag := if String.eqb n "this" || String.eqb n "" then 0 else if String.eqb n "last" then 1 else py_int n - 1 in
     a <- start_date G now lag (word u pl) ;;
     p <- start_date G now 0 (word u pl) ;;
     let days := (now - p) / day_secs in
     let lag := if 0 <? days then days - 1 else 0 in
     b <- add_to_end_date G a lag "day" ;;
     Ok (Some [(EGreaterOrEqual, CTime a); (ELessOrEqual, CTime b)])).
  Proof. intros T1 T2 A M S. rewrite (modifier_branch _ _ _ _ T1 T2 A M). rewrite S. reflexivity. Qed.
  Lemma elapsed_finish a u pl lag : 0 <= lag -> valid_day today -> valid_day (fst (elapsed ws u today (period ws u today - lag))) ->
    valid_day (snd (elapsed ws u today (period ws u today - lag))) -> ends_quarter a = false ->
    (p <- start_date G now 0 (word u pl) ;;
     let days := (now - p) / day_secs in
     let l := if 0 <? days then days - 1 else 0 in
     b <- add_to_end_date G (midnight (first_day ws u (period ws u today - lag))) l "day" ;;
     Ok (Some [(EGreaterOrEqual, CTime (midnight (first_day ws u (period ws u today - lag)))); (ELessOrEqual, CTime b)])) =
    Ok (Some [(EGreaterOrEqual, CTime (midnight (fst (elapsed ws u today (period ws u today - lag)))));
              (ELessOrEqual, CTime (finish a (snd (elapsed ws u today (period ws u today - lag)))))]).
  Proof.
    intros L T V V' Q. pose proof (elapsed_end u (word u pl) lag (unit_of_word u pl) L T V V') as E.
    unfold finish. rewrite Q. destruct (start_date G now 0 (word u pl)) as [q|e]; [|discriminate]. cbn [bind] in *. cbv zeta in *. rewrite E. reflexivity.
  Qed.

  Lemma parse_rel r : numbers r -> valid_day today -> valid_day (fst (days_of ws today py_int r)) -> valid_day (snd (days_of ws today py_int r)) ->
    parse_simple now G (write_rel r) =
      Ok (Some [(EGreaterOrEqual, CTime (midnight (fst (days_of ws today py_int r)))); (ELessOrEqual, CTime (finish r (snd (days_of ws today py_int r))))]).
  Proof.
    intros N T VA VB.
    destruct r as [| |u pl|u pl|n u pl|n u pl|a u pl|n u pl|n u pl n' u' pl']; cbn [days_of fst snd] in *.
    - cbn [write_rel]. unfold parse_simple. cbn [String.eqb Ascii.eqb Bool.eqb].
      rewrite (start_back UDay "day" 0), (end_back UDay "day" 0); auto; try lia; cbn [period first_day last_day] in *; try (unfold last_day; cbn [first_day]);
        try (replace (today - 0) with today by lia); auto; try (replace (today + 1 - 1) with today by lia); auto.
      cbn [bind closing]. unfold last_day. cbn [first_day]. unfold finish. cbn [ends_quarter]. replace (today + 1 - 1) with today by lia. reflexivity.
    - cbn [write_rel]. unfold parse_simple. cbn [String.eqb Ascii.eqb Bool.eqb].
      rewrite (start_back UDay "day" 1), (end_back UDay "day" 1); auto; try lia; cbn [period first_day]; auto; try (unfold last_day; cbn [first_day]);
         try (replace (today - 1 + 1 - 1) with (today - 1) by lia); auto.
      cbn [bind closing]. unfold last_day. cbn [first_day]. unfold finish. cbn [ends_quarter]. replace (today - 1 + 1 - 1) with (today - 1) by lia. reflexivity.
    - cbn [write_rel]. unfold parse_simple.
      assert (E1 : rsearch rx_ago_for ("this " ++ word u pl) = None) by (destruct u, pl; reflexivity).
      assert (E2 : rsearch rx_modifier ("this " ++ word u pl) = None) by (destruct u, pl; reflexivity).
      assert (E3 : rsearch rx_n_interval ("this " ++ word u pl) = Some [(1%nat, "this"); (2%nat, word u false)]) by (destruct u, pl; reflexivity).
      change (String.eqb ("this " ++ word u pl) "today") with false. change (String.eqb ("this " ++ word u pl) "yesterday") with false. cbv iota.
      unfold parse_ago_for, parse_modifier, parse_n_interval. rewrite E1. cbn [bind]. rewrite E2. cbn [bind]. rewrite E3.
      change (group 1 [(1%nat, "this"); (2%nat, word u false)]) with "this". change (group 2 [(1%nat, "this"); (2%nat, word u false)]) with (word u false).
      cbv zeta. change (String.eqb "this" "this") with true. change (String.eqb "this" "last") with false. cbv iota.
      rewrite (start_back u _ 0); auto using unit_of_word; try lia; rewrite ?Z.sub_0_r; auto.
      rewrite (end_back u _ 0); auto using unit_of_word; try lia; rewrite ?Z.sub_0_r; auto.
      cbn [bind]. unfold finish, closing. destruct u; reflexivity.
    - cbn [write_rel]. unfold parse_simple.
      assert (E1 : rsearch rx_ago_for ("last " ++ word u pl) = None) by (destruct u, pl; reflexivity).
      assert (E2 : rsearch rx_modifier ("last " ++ word u pl) = None) by (destruct u, pl; reflexivity).
      assert (E3 : rsearch rx_n_interval ("last " ++ word u pl) = Some [(1%nat, "last"); (2%nat, word u false)]) by (destruct u, pl; reflexivity).
      change (String.eqb ("last " ++ word u pl) "today") with false. change (String.eqb ("last " ++ word u pl) "yesterday") with false. cbv iota.
      unfold parse_ago_for, parse_modifier, parse_n_interval. rewrite E1. cbn [bind]. rewrite E2. cbn [bind]. rewrite E3.
      change (group 1 [(1%nat, "last"); (2%nat, word u false)]) with "last". change (group 2 [(1%nat, "last"); (2%nat, word u false)]) with (word u false).
      cbv zeta. change (String.eqb "last" "this") with false. change (String.eqb "last" "last") with true. cbv iota.
      rewrite (start_back u _ 1); auto using unit_of_word; try lia.
      rewrite (end_back u _ 1); auto using unit_of_word; try lia.
      cbn [bind]. unfold finish, closing. destruct u; reflexivity.
    - destruct N as [N P]. cbn [write_rel]. unfold parse_simple. destruct (number_text n (" " ++ word u pl) N) as [T1 [T2 _]]. rewrite T1, T2.
      assert (C : forall c p, is_digit c = false -> contains (String c p) (" " ++ word u pl) = false -> contains (String c p) (n ++ " " ++ word u pl) = false).
      { intros c p C H. rewrite contains_digits; auto. apply N. }
      unfold parse_ago_for. rewrite no_ago_for by (apply C; [reflexivity|destruct u, pl; reflexivity]). cbn [bind].
      unfold parse_modifier. rewrite no_modifier by (apply C; [reflexivity|destruct u, pl; reflexivity]). cbn [bind].
      unfold parse_n_interval. rewrite search_n_interval by auto.
      change (group 1 [(1%nat, n); (2%nat, word u false)]) with n. change (group 2 [(1%nat, n); (2%nat, word u false)]) with (word u false).
      cbv zeta. destruct (number_not_word n N) as [W1 [W2 _]]. rewrite W1, W2.
      rewrite (start_back u _ (py_int n - 1)); auto using unit_of_word; try lia. cbn [bind].
      rewrite (end_here u _ (py_int n - 1)); auto using unit_of_word; try lia. cbn [bind].
      unfold finish, closing. destruct u; reflexivity.
    - cbn [write_rel numbers] in *. change (n ++ " " ++ word u pl ++ " ago")%string with (n ++ " " ++ word u pl ++ " " ++ "ago")%string. rewrite (parse_number_modifier n u pl "ago"); [|auto|simpl; tauto|destruct u, pl; reflexivity].
      change (String.eqb "ago" "to date") with false. cbv zeta iota. pose proof (number_nonneg n N) as P.
      rewrite (start_back u _ (py_int n)); auto using unit_of_word; try lia. cbn [bind].
      change (String.eqb "ago" "ago to date" || false) with false. change (String.eqb "ago" "ago") with true. cbv iota.
      rewrite (end_back u _ (py_int n)); auto using unit_of_word; try lia. cbn [bind].
      unfold finish, closing. destruct u; reflexivity.
    - destruct a as [| | |n].
      + cbn [write_rel]. rewrite (parse_plain_modifier (word u pl ++ " to date") "" u pl) by (destruct u, pl; reflexivity).
        change (String.eqb "" "this" || String.eqb "" "") with true. cbv zeta iota.
        rewrite (start_back u (word u pl) 0) at 1; auto using unit_of_word; try lia.
        cbn [bind]. apply elapsed_finish; auto; lia.
      + cbn [write_rel]. rewrite (parse_plain_modifier ("this " ++ word u pl ++ " to date") "this" u pl) by (destruct u, pl; reflexivity).
        change (String.eqb "this" "this" || String.eqb "this" "") with true. cbv zeta iota.
        rewrite (start_back u (word u pl) 0) at 1; auto using unit_of_word; try lia.
        cbn [bind]. apply elapsed_finish; auto; lia.
      + cbn [write_rel]. rewrite (parse_plain_modifier ("last " ++ word u pl ++ " to date") "last" u pl) by (destruct u, pl; reflexivity).
        change (String.eqb "last" "this" || String.eqb "last" "") with false. change (String.eqb "last" "last") with true. cbv zeta iota.
        rewrite (start_back u (word u pl) 1) at 1; auto using unit_of_word; try lia.
        cbn [bind]. apply elapsed_finish; auto; lia.
      + destruct N as [N P]. cbn [write_rel]. change (n ++ " " ++ word u pl ++ " to date")%string with (n ++ " " ++ word u pl ++ " " ++ "to date")%string. rewrite (parse_number_modifier n u pl "to date"); [|auto|simpl; tauto|destruct u, pl; reflexivity].
        change (String.eqb "to date" "to date") with true. cbv zeta iota.
        rewrite (start_back u (word u pl) (py_int n - 1)) at 1; auto using unit_of_word; try lia.
        cbn [bind]. change (String.eqb "to date" "ago to date" || true) with true. cbv iota. apply elapsed_finish; auto; lia.
    - cbn [numbers] in N. pose proof (number_nonneg n N) as P. cbn [write_rel].
      change (n ++ " " ++ word u pl ++ " ago to date")%string with (n ++ " " ++ word u pl ++ " " ++ "ago to date")%string. rewrite (parse_number_modifier n u pl "ago to date"); [|auto|simpl; tauto|destruct u, pl; reflexivity].
      change (String.eqb "ago to date" "to date") with false. cbv zeta iota.
      rewrite (start_back u _ (py_int n)); auto using unit_of_word; try lia.
      cbn [bind]. change (String.eqb "ago to date" "ago to date" || false) with true. cbv iota. apply elapsed_finish; auto; lia.
    - destruct N as [N [N' P']]. pose proof (number_nonneg n N) as P. cbn [write_rel].
      unfold parse_simple. destruct (number_text n (" " ++ word u pl ++ " ago for " ++ n' ++ " " ++ word u' pl') N) as [T1 [T2 _]]. rewrite T1, T2.
      unfold parse_ago_for. rewrite search_ago_for by auto.
      match goal with |- context [group 1 ?l] => change (group 1 l) with n; change (group 2 l) with (word u pl); change (group 3 l) with n'; change (group 4 l) with (word u' false) end.
      rewrite (start_back u _ (py_int n)); auto using unit_of_word; try lia. cbn [bind].
      set (a := first_day ws u (period ws u today - py_int n)) in *.
      rewrite (add_to_end_date_spec ws now HW u'); auto using unit_of_word.
      + cbn [bind]. unfold finish, closing. destruct u'; reflexivity.
      + eapply valid_between; [exact VA|exact VB|]. pose proof (raw_add_in ws u' a (py_int n' - 1)). pose proof (raw_add_ge ws a u' (py_int n' - 1)). lia.
  Qed.
End Parse.

(** ** Through the filter *)
Lemma il_cons c t : Ascii.eqb "i" c = false -> contains "il" (String c t) = contains "il" t.
Proof. intros E. cbn [contains]. unfold starts_with. cbn [strip_prefix]. rewrite E. reflexivity. Qed.
Lemma write_rel_plain r : numbers r -> contains " until " (write_rel r) = false /\ ~ In (write_rel r) [""; "NULL"; "-NULL"; "TRUE"; "FALSE"].
Proof.
  intros N.
  assert (L : forall d s, is_number d -> contains "il" s = false -> contains " until " (d ++ s) = false).
  { intros d s D C. apply (contains_sub "il"); [reflexivity|]. rewrite contains_digits; auto. apply D. }
  destruct r as [| |u pl|u pl|n u pl|n u pl|a u pl|n u pl|n u pl n' u' pl']; cbn [write_rel numbers] in *.
  - split; [reflexivity|]. intros [E|[E|[E|[E|[E|[]]]]]]; discriminate.
  - split; [reflexivity|]. intros [E|[E|[E|[E|[E|[]]]]]]; discriminate.
  - split; [destruct u, pl; reflexivity|]. intros [E|[E|[E|[E|[E|[]]]]]]; discriminate.
  - split; [destruct u, pl; reflexivity|]. intros [E|[E|[E|[E|[E|[]]]]]]; discriminate.
  - destruct N as [N _]. split; [apply L; auto; destruct u, pl; reflexivity|]. apply number_text; auto.
  - split; [apply L; auto; destruct u, pl; reflexivity|]. apply number_text; auto.
  - destruct a as [| | |n].
    + split; [destruct u, pl; reflexivity|]. destruct u, pl; (intros [E|[E|[E|[E|[E|[]]]]]]; discriminate).
    + split; [destruct u, pl; reflexivity|]. intros [E|[E|[E|[E|[E|[]]]]]]; discriminate.
    + split; [destruct u, pl; reflexivity|]. intros [E|[E|[E|[E|[E|[]]]]]]; discriminate.
    + destruct N as [N _]. split; [apply L; auto; destruct u, pl; reflexivity|]. apply number_text; auto.
  - split; [apply L; auto; destruct u, pl; reflexivity|]. apply number_text; auto.
  - destruct N as [N [N' _]]. split; [|apply number_text; auto]. apply L; auto.
    assert (C : contains "il" (n' ++ " " ++ word u' pl') = false).
    { rewrite contains_digits; [|reflexivity|apply N']. destruct u', pl'; reflexivity. }
    revert C. generalize (n' ++ " " ++ word u' pl')%string. intros t C. clear - C. destruct u, pl; cbn [append word]; rewrite !il_cons by reflexivity; exact C.
Qed.
Lemma week_day_range w : 0 <= week_day w < 7.
Proof.
  destruct w as [d|]; simpl; [|lia]. repeat match goal with |- context [if ?b then _ else _] => destruct b end; lia.
Qed.
Lemma filter_rel num now g w r : numbers r -> valid_day (now / 86400) ->
  valid_day (fst (days_of (week_day w) (now / 86400) py_int r)) -> valid_day (snd (days_of (week_day w) (now / 86400) py_int r)) ->
  filter_dict num now g (VStr (write_rel r)) w =
    (Ok [(EGreaterOrEqual, CTime (midnight (fst (days_of (week_day w) (now / 86400) py_int r))));
         (ELessOrEqual, CTime (finish r (snd (days_of (week_day w) (now / 86400) py_int r))))], default_globals).
Proof.
  intros N T A B. destruct (write_rel_plain r N) as [U R]. pose proof (parse_rel (week_day w) now (week_day_range w) r N T A B) as P.
  set (s := write_rel r) in *. unfold filter_dict. cbn [py_str].
  assert (K : forall x, In x [""; "NULL"; "-NULL"; "TRUE"; "FALSE"] -> String.eqb s x = false).
  { intros x X. apply String.eqb_neq. intros ->. auto. }
  rewrite (K "") by (simpl; tauto). unfold parse_date_condition. cbn [py_str]. rewrite U.
  change (set_week_start_day g w) with (week_globals (week_day w)). rewrite P. unfold clean_value.
  rewrite (K "NULL"), (K "-NULL"), (K "TRUE"), (K "FALSE") by (simpl; tauto). reflexivity.
Qed.

(** ** Decimal numbers *)
Lemma digit_ok n : (n < 10)%nat -> is_digit (digit n) = true /\ digit_val (digit n) = Z.of_nat n.
Proof. intros L. do 10 (destruct n as [|n]; [split; reflexivity|]). lia. Qed.
Lemma nat_str_fuel_spec f : forall n acc, (n < f)%nat -> all_p is_digit acc = true ->
  all_p is_digit (nat_str_fuel f n acc) = true /\ nat_str_fuel f n acc <> "" /\ int_acc 0 (nat_str_fuel f n acc) = int_acc (Z.of_nat n) acc.
Proof.
  induction f as [|f IH]; intros n acc L A; [lia|]. cbn [nat_str_fuel]. cbv zeta.
  destruct (digit_ok (n mod 10)) as [D V]; [apply Nat.mod_upper_bound; lia|].
  destruct (n <? 10)%nat eqn:E.
  - apply Nat.ltb_lt in E. rewrite Nat.mod_small in * by auto. repeat split; [cbn [all_p]; rewrite D; auto|discriminate|].
    cbn [int_acc]. rewrite V. reflexivity.
  - apply Nat.ltb_ge in E. assert (Q : (n / 10 < f)%nat) by (apply Nat.lt_le_trans with n; [apply Nat.div_lt; lia|lia]).
    destruct (IH (n / 10)%nat (String (digit (n mod 10)) acc) Q) as [I1 [I2 I3]]; [cbn [all_p]; rewrite D; auto|].
    repeat split; auto. rewrite I3. cbn [int_acc]. rewrite V. f_equal. pose proof (Nat.div_mod n 10). lia.
Qed.
Lemma nat_str_number n : is_number (nat_str n) /\ py_int (nat_str n) = Z.of_nat n.
Proof.
  destruct (nat_str_fuel_spec (S n) n "") as [A [B C]]; [lia|reflexivity|]. split; [split; auto|]. exact C.
Qed.
