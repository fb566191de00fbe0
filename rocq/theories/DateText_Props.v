(** The dates written out in a filter value (C18: "after", "before", "on", "not on") and the ranges written
    "A until B" (C19). *)
From Coq Require Import QArith.
From Verif Require Import PyBase PyStr PyRx PyDate Core_Model Filter_Model Filter_Spec Filter_Proofs FilterDate_Spec FilterDate_Proofs.
Local Open Scope string_scope.
Local Open Scope list_scope.
Local Open Scope Z_scope.

(** ** What a written date is *)
Definition digits : list (ascii * Z) :=
  [("0"%char, 0); ("1"%char, 1); ("2"%char, 2); ("3"%char, 3); ("4"%char, 4); ("5"%char, 5); ("6"%char, 6); ("7"%char, 7); ("8"%char, 8); ("9"%char, 9)].
Definition months : list (string * Z) :=
  [("1", 1); ("2", 2); ("3", 3); ("4", 4); ("5", 5); ("6", 6); ("7", 7); ("8", 8); ("9", 9);
   ("01", 1); ("02", 2); ("03", 3); ("04", 4); ("05", 5); ("06", 6); ("07", 7); ("08", 8); ("09", 9); ("10", 10); ("11", 11); ("12", 12)].
Definition days : list (string * Z) :=
  [("1", 1); ("2", 2); ("3", 3); ("4", 4); ("5", 5); ("6", 6); ("7", 7); ("8", 8); ("9", 9);
   (" 1", 1); (" 2", 2); (" 3", 3); (" 4", 4); (" 5", 5); (" 6", 6); (" 7", 7); (" 8", 8); (" 9", 9);
   ("01", 1); ("02", 2); ("03", 3); ("04", 4); ("05", 5); ("06", 6); ("07", 7); ("08", 8); ("09", 9);
   ("10", 10); ("11", 11); ("12", 12); ("13", 13); ("14", 14); ("15", 15); ("16", 16); ("17", 17); ("18", 18); ("19", 19);
   ("20", 20); ("21", 21); ("22", 22); ("23", 23); ("24", 24); ("25", 25); ("26", 26); ("27", 27); ("28", 28); ("29", 29); ("30", 30); ("31", 31)].
Definition leap_year (y : Z) : Prop := (4 | y) /\ ((100 | y) -> (400 | y)).
(** [n] is at most the length of month [m] of year [y] *)
Definition in_month (y m n : Z) : Prop :=
  n <= 28 \/ (m <> 2 /\ n <= 30) \/ (In m [1; 3; 5; 7; 8; 10; 12] /\ n = 31) \/ (m = 2 /\ n = 29 /\ leap_year y).
(** [s] is written year-month-day, the year with four digits, and names day [t] of the calendar *)
Definition names_day (s : string) (t : Z) : Prop := exists a b c d va vb vc vd M m D n,
  In (a, va) digits /\ In (b, vb) digits /\ In (c, vc) digits /\ In (d, vd) digits /\ In (M, m) months /\ In (D, n) days /\
  s = String a (String b (String c (String d ("-" ++ M ++ "-" ++ D)))) /\
  let y := 1000 * va + 100 * vb + 10 * vc + vd in
  1 <= y /\ in_month y m n /\ t = month_start (12 * y + m - 1) + n - 1.

(** ** The parser *)
Lemma digit_table c : is_digit c = true -> In (c, digit_val c) digits.
Proof. destruct c as [[] [] [] [] [] [] [] []]; intros H; try discriminate H; vm_compute; tauto. Qed.
Lemma digit_table' c v : In (c, v) digits -> is_digit c = true /\ digit_val c = v.
Proof. intros H. simpl in H. repeat (destruct H as [H|H]; [inversion H; subst; split; reflexivity|]). destruct H. Qed.
Lemma leap_iff y : leap y = true <-> leap_year y.
Proof.
  unfold leap, leap_year. rewrite andb_true_iff, orb_true_iff, negb_true_iff, Z.eqb_eq, Z.eqb_neq, Z.eqb_eq.
  rewrite <- !Z.mod_divide by lia. split; intros [A B]; (split; [exact A|]).
  - intros C. destruct B as [B|B]; [contradiction|exact B].
  - destruct (Z.eq_dec (y mod 100) 0) as [E|N]; [right; apply B; exact E|left; exact N].
Qed.
Definition mem_z (x : Z) (l : list Z) : bool := existsb (Z.eqb x) l.
Lemma days_table y m : 1 <= m <= 12 ->
  days_in_month (12 * y + m - 1) = if m =? 2 then (if leap y then 29 else 28) else if mem_z m [4; 6; 9; 11] then 30 else 31.
Proof.
  intros Hm. unfold days_in_month.
  assert (E : month_start (12 * y + m - 1 + 1) = if m =? 12 then before_year (y + 1) else before_year y + cum m + (if (2 <=? m) && leap y then 1 else 0)).
  { destruct (Z.eqb_spec m 12) as [E|E].
    - replace (12 * y + m - 1 + 1) with (12 * (y + 1) + 0) by lia. rewrite month_start_eq by lia. cbn. lia.
    - replace (12 * y + m - 1 + 1) with (12 * y + m) by lia. apply month_start_eq. lia. }
  rewrite E. replace (12 * y + m - 1) with (12 * y + (m - 1)) by lia. rewrite month_start_eq by lia.
  pose proof (leap_spec y) as L. clear E.
  assert (K : m = 1 \/ m = 2 \/ m = 3 \/ m = 4 \/ m = 5 \/ m = 6 \/ m = 7 \/ m = 8 \/ m = 9 \/ m = 10 \/ m = 11 \/ m = 12) by lia.
  do 11 (destruct K as [K|K]; [subst m; simpl; destruct (leap y); simpl in *; lia|]). subst m; simpl; destruct (leap y); simpl in *; lia.
Qed.
Lemma month_length y m n : 1 <= m <= 12 -> 1 <= n <= 31 -> (n - 1 <? days_in_month (12 * y + m - 1)) = true <-> in_month y m n.
Proof.
  intros Hm Hn. rewrite Z.ltb_lt, days_table by exact Hm. pose proof (leap_iff y) as I. unfold in_month.
  assert (K : m = 1 \/ m = 2 \/ m = 3 \/ m = 4 \/ m = 5 \/ m = 6 \/ m = 7 \/ m = 8 \/ m = 9 \/ m = 10 \/ m = 11 \/ m = 12) by lia.
  destruct K as [->|[->|K]].
  - simpl. split; [intros _|intros _; lia]. destruct (Z.eq_dec n 31); [right; right; left; tauto|right; left; lia].
  - simpl. destruct (leap y).
    + split; [intros L; destruct (Z.eq_dec n 29); [right; right; right; tauto|left; lia]|].
      intros [L|[[L _]|[[[L|[L|[L|[L|[L|[L|[L|[]]]]]]]] _]|[_ [L _]]]]]; lia.
    + split; [intros L; left; lia|]. intros [L|[[L _]|[[[L|[L|[L|[L|[L|[L|[L|[]]]]]]]] _]|[_ [_ L]]]]]; try lia. apply I in L. discriminate.
  - assert (T : forall L, (mem_z m [4; 6; 9; 11] = true -> L = 30) -> (mem_z m [4; 6; 9; 11] = false -> L = 31) ->
      (n - 1 < L <-> n <= 28 \/ m <> 2 /\ n <= 30 \/ In m [1; 3; 5; 7; 8; 10; 12] /\ n = 31 \/ m = 2 /\ n = 29 /\ leap_year y)).
    { intros L. clear I. repeat (destruct K as [->|K]; [simpl; intros A B; first [rewrite (A eq_refl) | rewrite (B eq_refl)]; intuition lia|]).
      subst m; simpl; intros A B; rewrite (B eq_refl); intuition lia. }
    assert (m <> 2) by lia. destruct (Z.eqb_spec m 2) as [E|_]; [contradiction|]. apply T; intros ->; reflexivity.
Qed.
Lemma rm_month M m X R : In (M, m) months ->
  rm (RSeq (RGrp 2 r_month) (RSeq (RLit "-") X)) (M ++ "-" ++ R) =
  map (fun x => let '(c, t, r) := x in ((2%nat, M) :: c, (M ++ "-" ++ t)%string, r)) (rm X R).
Proof.
  intros H. simpl in H.
  repeat (destruct H as [H|H]; [injection H as <- _; simpl; rewrite ?app_nil_r, ?map_map; apply map_ext; intros [[c t] r]; reflexivity|]). destruct H.
Qed.
Lemma rm_day D n : In (D, n) days -> exists l, rm (RGrp 3 r_day) D = ([(3%nat, D)], D, "") :: l.
Proof.
  intros H. simpl in H. repeat (destruct H as [H|H]; [injection H as <- _; eexists; reflexivity|]). destruct H.
Qed.
Lemma month_value M m : In (M, m) months -> py_int M = m /\ 1 <= m <= 12.
Proof. intros H. simpl in H. repeat (destruct H as [H|H]; [injection H as <- <-; split; [reflexivity|lia]|]). destruct H. Qed.
Lemma day_value D n : In (D, n) days -> py_int (strip D) = n /\ 1 <= n <= 31.
Proof. intros H. simpl in H. repeat (destruct H as [H|H]; [injection H as <- <-; split; [reflexivity|lia]|]). destruct H. Qed.
Lemma in_month_text M r c t : In (c, t, r) (rm (RGrp 2 r_month) M) -> exists m, In (t, m) months /\ c = [(2%nat, t)].
Proof.
  intros H. destruct M as [|x M]; [destruct H|].
  assert (G : forall z, in_chars "123456789" z = true -> exists m, In (String z "", m) months /\ In (String "0" (String z ""), m) months).
  { intros z Z. unfold in_chars in Z. cbn [has_char] in Z. repeat (apply orb_true_iff in Z; destruct Z as [Z|Z]; [apply Ascii.eqb_eq in Z; subst z; clear; eexists; split; simpl; eauto 25 |]). discriminate. }
  assert (G2 : forall z, in_chars "012" z = true -> exists m, In (String "1" (String z ""), m) months).
  { intros z Z. unfold in_chars in Z. cbn [has_char] in Z. repeat (apply orb_true_iff in Z; destruct Z as [Z|Z]; [apply Ascii.eqb_eq in Z; subst z; clear; eexists; simpl; eauto 25 |]). discriminate. }
  cbn [rm r_month] in H. apply in_map_iff in H. destruct H as [[[c1 t1] r1] [E H]]. inversion E; subst. clear E.
  apply in_app_iff in H. destruct H as [H|H]; [|apply in_app_iff in H; destruct H as [H|H]].
  - apply in_flat_map in H. destruct H as [[[c2 t2] r2] [H1 H2]]. apply in_map_iff in H2. destruct H2 as [[[c3 t3] r3] [E H2]]. inversion E; subst.
    cbn [rm] in H1. destruct (strip_prefix "1" (String x M)); [|destruct H1]. destruct H1 as [H1|[]]. inversion H1; subst.
    cbn [rm] in H2. destruct r2 as [|z q]; [destruct H2|]. destruct (in_chars "012" z) eqn:Z; [|destruct H2]. destruct H2 as [H2|[]]. inversion H2; subst.
    destruct (G2 z Z) as [m I]. exists m. split; [exact I|reflexivity].
  - apply in_flat_map in H. destruct H as [[[c2 t2] r2] [H1 H2]]. apply in_map_iff in H2. destruct H2 as [[[c3 t3] r3] [E H2]]. inversion E; subst.
    cbn [rm] in H1. destruct (strip_prefix "0" (String x M)); [|destruct H1]. destruct H1 as [H1|[]]. inversion H1; subst.
    cbn [rm] in H2. destruct r2 as [|z q]; [destruct H2|]. destruct (in_chars "123456789" z) eqn:Z; [|destruct H2]. destruct H2 as [H2|[]]. inversion H2; subst.
    destruct (G z Z) as [m [_ I]]. exists m. split; [exact I|reflexivity].
  - destruct (in_chars "123456789" x) eqn:Z; [|destruct H]. destruct H as [H|[]]. inversion H; subst.
    destruct (G x Z) as [m [I _]]. exists m. split; [exact I|reflexivity].
Qed.
Lemma in_day_text s r c t : In (c, t, r) (rm (RGrp 3 r_day) s) -> exists n, In (t, n) days /\ c = [(3%nat, t)].
Proof.
  intros H.
  assert (G : forall z, in_chars "123456789" z = true -> exists m, In (String z "", m) days /\ In (String "0" (String z ""), m) days /\ In (String " " (String z ""), m) days).
  { intros z Z. unfold in_chars in Z. cbn [has_char] in Z.
    repeat (apply orb_true_iff in Z; destruct Z as [Z|Z]; [apply Ascii.eqb_eq in Z; subst z; clear; eexists; split; [|split]; simpl; eauto 60 |]). discriminate. }
  assert (G2 : forall z, in_chars "01" z = true -> exists m, In (String "3" (String z ""), m) days).
  { intros z Z. unfold in_chars in Z. cbn [has_char] in Z. repeat (apply orb_true_iff in Z; destruct Z as [Z|Z]; [apply Ascii.eqb_eq in Z; subst z; clear; eexists; simpl; eauto 60 |]). discriminate. }
  assert (G3 : forall x z, in_chars "12" x = true -> is_digit z = true -> exists m, In (String x (String z ""), m) days).
  { intros x z X Z. unfold in_chars in X. cbn [has_char] in X. apply digit_table in Z. unfold digits in Z.
    repeat (apply orb_true_iff in X; destruct X as [X|X];
      [apply Ascii.eqb_eq in X; subst x; repeat (destruct Z as [Z|Z]; [injection Z as <- _; eexists; simpl; eauto 60|]); destruct Z|]). discriminate. }
  cbn [rm r_day] in H. apply in_map_iff in H. destruct H as [[[c1 t1] r1] [E H]]. inversion E; subst. clear E.
  apply in_app_iff in H. destruct H as [H|H]; [|apply in_app_iff in H; destruct H as [H|H]; [|apply in_app_iff in H; destruct H as [H|H]; [|apply in_app_iff in H; destruct H as [H|H]]]].
  - apply in_flat_map in H. destruct H as [[[c2 t2] r2] [H1 H2]]. apply in_map_iff in H2. destruct H2 as [[[c3 t3] r3] [E H2]]. inversion E; subst.
    destruct (strip_prefix "3" s); [|destruct H1]. destruct H1 as [H1|[]]. inversion H1; subst.
    destruct r2 as [|z q]; [destruct H2|]. destruct (in_chars "01" z) eqn:Z; [|destruct H2]. destruct H2 as [H2|[]]. inversion H2; subst.
    destruct (G2 z Z) as [m I]. exists m. split; [exact I|reflexivity].
  - apply in_flat_map in H. destruct H as [[[c2 t2] r2] [H1 H2]]. apply in_map_iff in H2. destruct H2 as [[[c3 t3] r3] [E H2]]. inversion E; subst.
    destruct s as [|x s]; [destruct H1|]. destruct (in_chars "12" x) eqn:X; [|destruct H1]. destruct H1 as [H1|[]]. inversion H1; subst.
    destruct r2 as [|z q]; [destruct H2|]. destruct (is_digit z) eqn:Z; [|destruct H2]. destruct H2 as [H2|[]]. inversion H2; subst.
    destruct (G3 x z X Z) as [m I]. exists m. split; [exact I|reflexivity].
  - apply in_flat_map in H. destruct H as [[[c2 t2] r2] [H1 H2]]. apply in_map_iff in H2. destruct H2 as [[[c3 t3] r3] [E H2]]. inversion E; subst.
    destruct (strip_prefix "0" s); [|destruct H1]. destruct H1 as [H1|[]]. inversion H1; subst.
    destruct r2 as [|z q]; [destruct H2|]. destruct (in_chars "123456789" z) eqn:Z; [|destruct H2]. destruct H2 as [H2|[]]. inversion H2; subst.
    destruct (G z Z) as [m [_ [I _]]]. exists m. split; [exact I|reflexivity].
  - destruct s as [|x s]; [destruct H|]. destruct (in_chars "123456789" x) eqn:Z; [|destruct H]. destruct H as [H|[]]. inversion H; subst.
    destruct (G x Z) as [m [I _]]. exists m. split; [exact I|reflexivity].
  - apply in_flat_map in H. destruct H as [[[c2 t2] r2] [H1 H2]]. apply in_map_iff in H2. destruct H2 as [[[c3 t3] r3] [E H2]]. inversion E; subst.
    destruct (strip_prefix " " s); [|destruct H1]. destruct H1 as [H1|[]]. inversion H1; subst.
    destruct r2 as [|z q]; [destruct H2|]. destruct (in_chars "123456789" z) eqn:Z; [|destruct H2]. destruct H2 as [H2|[]]. inversion H2; subst.
    destruct (G z Z) as [m [_ [_ I]]]. exists m. split; [exact I|reflexivity].
Qed.
Lemma rm_year s X : rm (RSeq (RGrp 1 r_year) X) s =
  match s with
  | String a (String b (String c (String d r))) =>
      if is_digit a && is_digit b && is_digit c && is_digit d
      then map (fun x => let '(k, t, q) := x in ((1%nat, String a (String b (String c (String d "")))) :: k, String a (String b (String c (String d t))), q)) (rm X r)
      else []
  | _ => []
  end.
Proof.
  destruct s as [|a [|b [|c [|d r]]]]; try reflexivity; simpl;
    repeat match goal with |- context [is_digit ?x] => destruct (is_digit x); simpl; auto end.
  rewrite app_nil_r. apply map_ext. intros [[k t] q]. reflexivity.
Qed.
Definition year_of (a b c d : ascii) : Z := py_int (String a (String b (String c (String d "")))).
Lemma year_value a b c d : year_of a b c d = 1000 * digit_val a + 100 * digit_val b + 10 * digit_val c + digit_val d.
Proof. unfold year_of, py_int. cbn [int_acc]. lia. Qed.

Lemma parse_day s t : parse_date_string s = Ok t <-> exists k, t = midnight k /\ names_day s k.
Proof.
  unfold parse_date_string, rx_date. rewrite rm_year. split.
  - intros H. destruct s as [|a [|b [|c [|d r]]]]; try discriminate H.
    destruct (is_digit a && is_digit b && is_digit c && is_digit d) eqn:Dg; [|discriminate H].
    apply andb_true_iff in Dg. destruct Dg as [Dg D4]. apply andb_true_iff in Dg. destruct Dg as [Dg D3]. apply andb_true_iff in Dg. destruct Dg as [D1 D2].
    set (X := RSeq (RLit "-") (RSeq (RGrp 2 r_month) (RSeq (RLit "-") (RGrp 3 r_day)))) in *.
    destruct (rm X r) as [|[[k u] q] l] eqn:R; [discriminate H|]. cbn [map] in H. destruct q as [|q0 q]; [|discriminate H].
    assert (I : In (k, u, "") (rm X r)) by (rewrite R; left; reflexivity). clear R l.
    assert (A : r = u) by (apply rm_app in I; rewrite append_nil_r in I; exact I). subst u.
    unfold X in I. cbn [rm] in I. apply in_flat_map in I. destruct I as [[[c1 t1] r1] [I1 I]]. destruct (strip_prefix "-" r) as [r'|] eqn:P; [|destruct I1].
    destruct I1 as [I1|[]]. inversion I1; subst c1 t1 r1. clear I1. apply in_map_iff in I. destruct I as [[[c2 t2] r2] [E I]]. inversion E; subst k r r2. clear E P.
    apply in_flat_map in I. destruct I as [[[c3 t3] r3] [I1 I]]. apply in_map_iff in I. destruct I as [[[c4 t4] r4] [E I]]. inversion E; subst c2 t2 r4. clear E.
    change (In (c3, t3, r3) (rm (RGrp 2 r_month) r')) in I1. apply in_month_text in I1. destruct I1 as [m [IM ->]].
    apply in_flat_map in I. destruct I as [[[c5 t5] r5] [I1 I]]. destruct (strip_prefix "-" r3) as [r3'|]; [|destruct I1]. destruct I1 as [I1|[]]. inversion I1; subst c5 t5 r5. clear I1.
    apply in_map_iff in I. destruct I as [[[c6 t6] r6] [E I]]. inversion E; subst c4 t4 r6. clear E.
    change (In (c6, t6, "") (rm (RGrp 3 r_day) r3')) in I. apply in_day_text in I. destruct I as [n [ID ->]].
    cbn [app group Nat.eqb] in H. destruct (month_value _ _ IM) as [Vm Bm]. destruct (day_value _ _ ID) as [Vd Bd]. rewrite Vm, Vd in H.
    fold (year_of a b c d) in H. rewrite year_value in H. cbv zeta in H.
    destruct ((1 <=? 1000 * digit_val a + 100 * digit_val b + 10 * digit_val c + digit_val d) && (n - 1 <? days_in_month (12 * (1000 * digit_val a + 100 * digit_val b + 10 * digit_val c + digit_val d) + m - 1))) eqn:V; [|discriminate H].
    apply andb_true_iff in V. destruct V as [V1 V2]. apply Z.leb_le in V1. apply month_length in V2; [|assumption|assumption].
    set (Y := 1000 * digit_val a + 100 * digit_val b + 10 * digit_val c + digit_val d) in *.
    assert (Ht : t = (month_start (12 * Y + m - 1) + (n - 1)) * day_secs) by congruence. clear H. subst t.
    exists (month_start (12 * Y + m - 1) + n - 1). split; [unfold midnight, day_secs; lia|].
    exists a, b, c, d, (digit_val a), (digit_val b), (digit_val c), (digit_val d), t3, m, t6, n.
    repeat (split; [first [apply digit_table; assumption | assumption | reflexivity]|]). reflexivity.
  - intros [k [-> (a & b & c & d & va & vb & vc & vd & M & m & D & n & Ha & Hb & Hc & Hd & HM & HD & -> & Y & L & ->)]].
    apply digit_table' in Ha. apply digit_table' in Hb. apply digit_table' in Hc. apply digit_table' in Hd.
    destruct Ha as [-> Va]. destruct Hb as [-> Vb]. destruct Hc as [-> Vc]. destruct Hd as [-> Vd]. cbn [andb].
    rewrite rm_seq_lit, (rm_month M m _ D HM). destruct (rm_day D n HD) as [l ->]. cbn [map ext app group Nat.eqb].
    destruct (month_value _ _ HM) as [Wm Bm]. destruct (day_value _ _ HD) as [Wd Bd]. cbv zeta. rewrite Wm, Wd.
    fold (year_of a b c d). rewrite year_value, Va, Vb, Vc, Vd. cbv zeta in Y, L.
    assert ((1 <=? 1000 * va + 100 * vb + 10 * vc + vd) = true) as -> by (apply Z.leb_le; exact Y).
    rewrite (proj2 (month_length _ m n Bm Bd) L). cbn [andb]. f_equal. unfold midnight, day_secs. lia.
Qed.
Lemma parse_day_err s e : parse_date_string s = Err e -> e = ValueError.
Proof.
  unfold parse_date_string. destruct (rm rx_date s) as [|[[k t] [|q0 q]] l]; try (intros H; congruence).
  cbv zeta. destruct (_ && _); intros H; congruence.
Qed.
Lemma parse_no_day s : (forall k, ~ names_day s k) -> parse_date_string s = Err ValueError.
Proof.
  intros N. destruct (parse_date_string s) as [t|e] eqn:P; [|f_equal; exact (parse_day_err _ _ P)].
  apply (proj1 (parse_day _ _)) in P. destruct P as [k [_ P]]. destruct (N k P).
Qed.

(** ** C18 *)
(** "after D", "before D", "on D" and "not on D" compare with the midnight that begins the day [D] names;
    a text that names no day (another format, February 30th, year 0000) is refused with ValueError. *)
Theorem C18_written_dates num now g w (kw : string) e d :
  In (kw, e) [("after ", EGreaterOrEqual); ("before ", ELessOrEqual); ("on ", EEqualTo); ("not on ", ENotEqualTo)] ->
  has_char " " d = false -> no_dates (kw ++ d) ->
  (forall t, names_day d t -> filter_dict num now g (VStr (kw ++ d)) w = (Ok [(e, CTime (midnight t))], default_globals)) /\
  ((forall t, ~ names_day d t) -> filter_dict num now g (VStr (kw ++ d)) w = (Err ValueError, default_globals)).
Proof.
  intros I N ND.
  assert (C : clean_value num (VStr (kw ++ d)) None = x <- parse_date_string d ;; Ok [(e, CTime x)]).
  { unfold clean_value, clean_string. rewrite split_str_char.
    simpl in I. destruct I as [I|[I|[I|[I|[]]]]]; injection I as <- <-; simpl split_char; rewrite (split_char_nochar " " d) by auto;
      cbn; destruct (parse_date_string d); reflexivity. }
  assert (F : filter_dict num now g (VStr (kw ++ d)) w = (x <- parse_date_string d ;; Ok [(e, CTime x)], default_globals)).
  { unfold filter_dict. rewrite no_date_condition by exact ND. rewrite C. cbn [py_str].
    simpl in I. destruct I as [I|[I|[I|[I|[]]]]]; injection I as <- <-; reflexivity. }
  rewrite F. split.
  - intros t T. assert (P : parse_date_string d = Ok (midnight t)) by (apply parse_day; exists t; split; [reflexivity|exact T]). rewrite P. reflexivity.
  - intros T. rewrite (parse_no_day d T). reflexivity.
Qed.
Print Assumptions C18_written_dates.
(** "2024-2-29" names the 60th day of 2024; "2023-2-29" names no day; neither do a slashed date nor a date
    with the time behind it. *)
Lemma named_value s t : names_day s t -> parse_date_string s = Ok (midnight t).
Proof. intros H. apply parse_day. exists t. split; [reflexivity|exact H]. Qed.
Example C18_written_dates_case : (names_day "2024-2-29" (month_start (12 * 2024) + 59)) /\ (forall t, ~ names_day "2023-2-29" t) /\ (forall t, ~ names_day "2024/02/28" t) /\ (forall t, ~ names_day "2024-02-28T00:00:00" t) /\ no_dates "after 2024-2-29" /\ has_char " " "2024-2-29" = false.
Proof.
  split; [|repeat split; try (intros t T; apply named_value in T; vm_compute in T; discriminate T)].
  - exists "2"%char, "0"%char, "2"%char, "4"%char, 2, 0, 2, 4, "2", 2, "29", 29.
    do 6 (split; [simpl; tauto|]). split; [reflexivity|]. cbv zeta. split; [lia|]. split; [|reflexivity].
    right; right; right. split; [reflexivity|]. split; [reflexivity|]. split; [exists 506; reflexivity|]. intros [k K]. lia.
  - intros W I. simpl in I. repeat (destruct I as [<-|I]; [reflexivity|]). destruct I.
Qed.
(** A day has one name up to leading zeros, and a text names at most one day. *)
Theorem C18_one_day s t t' : names_day s t -> names_day s t' -> t = t'.
Proof.
  intros H H'. apply named_value in H. apply named_value in H'. rewrite H in H'. unfold midnight in H'. assert (86400 * t = 86400 * t') by congruence. lia.
Qed.
Print Assumptions C18_one_day.
Example C18_one_day_case : names_day "0999-12-31" (month_start (12 * 1000) - 1).
Proof.
  exists "0"%char, "9"%char, "9"%char, "9"%char, 0, 9, 9, 9, "12", 12, "31", 31.
  do 6 (split; [simpl; tauto|]). split; [reflexivity|]. cbv zeta. split; [lia|]. split; [|reflexivity].
  right; right; left. simpl. tauto.
Qed.

(** ** C19: "A until B" *)
Lemma fresh_until p : contains " u" p = false -> fresh " until " p.
Proof.
  intros C q c q' -> r.
  assert (C' : contains " u" (String c q') = false).
  { destruct (contains " u" (String c q')) eqn:E; auto. rewrite (contains_right _ q _ E) in C. discriminate. }
  cbn [contains] in C'. apply orb_false_iff in C'. destruct C' as [C' _]. unfold starts_with in C'.
  cbn [append strip_prefix] in *. destruct (Ascii.eqb " " c); auto. destruct q' as [|d q']; cbn [append strip_prefix] in *.
  - reflexivity.
  - destruct (Ascii.eqb "u" d); auto. discriminate C'.
Qed.
(** The two sides of a range *)
Inductive side := SDay (text : string) (day : Z) | SRel (r : rel).
Definition written_side (s : side) : string := match s with SDay d _ => d | SRel r => write_rel r end.
(** First and last instant of what is written on a side; a written day counts as its midnight only. *)
Definition side_ok (ws today : Z) (s : side) : Prop :=
  match s with
  | SDay d t => names_day d t
  | SRel r => numbers r /\ valid_day today /\ valid_day (fst (days_of ws today py_int r)) /\ valid_day (snd (days_of ws today py_int r))
  end.
Definition begins (ws today : Z) (s : side) : Z :=
  match s with SDay _ t => midnight t | SRel r => midnight (fst (days_of ws today py_int r)) end.
Definition ends (ws today : Z) (s : side) : Z :=
  match s with
  | SDay _ t => midnight t
  | SRel r => let d := snd (days_of ws today py_int r) in if ends_quarter r then midnight d else last_second d
  end.
Lemma day_chars s t c : names_day s t -> has_char c "0123456789- " = false -> has_char c s = false.
Proof.
  intros (a & b & cc & d & va & vb & vc & vd & M & m & D & n & Ha & Hb & Hc & Hd & HM & HD & -> & _) C.
  assert (Dg : forall x v, In (x, v) digits -> Ascii.eqb x c = false).
  { intros x v X. apply Ascii.eqb_neq. intros ->. simpl in X. repeat (destruct X as [X|X]; [injection X as <- _; discriminate C|]). destruct X. }
  cbn [has_char append]. rewrite (Dg _ _ Ha), (Dg _ _ Hb), (Dg _ _ Hc), (Dg _ _ Hd).
  assert (Ds : Ascii.eqb "-" c = false) by (apply Ascii.eqb_neq; intros <-; discriminate C). rewrite Ds. cbn [orb].
  rewrite has_char_app. cbn [has_char]. rewrite Ds. cbn [orb].
  assert (Sp : Ascii.eqb " " c = false) by (apply Ascii.eqb_neq; intros <-; discriminate C).
  assert (K : forall x, In x ["0"; "1"; "2"; "3"; "4"; "5"; "6"; "7"; "8"; "9"]%char -> Ascii.eqb x c = false).
  { intros x X. apply Ascii.eqb_neq. intros ->. simpl in X. repeat (destruct X as [<-|X]; [discriminate C|]). destruct X. }
  assert (EM : has_char c M = false).
  { simpl in HM. repeat (destruct HM as [HM|HM]; [injection HM as <- _; cbn [has_char]; rewrite ?K by (simpl; tauto); reflexivity|]). destruct HM. }
  assert (ED : has_char c D = false).
  { simpl in HD. repeat (destruct HD as [HD|HD]; [injection HD as <- _; cbn [has_char]; rewrite ?Sp; rewrite ?K by (simpl; tauto); reflexivity|]). destruct HD. }
  rewrite EM, ED. reflexivity.
Qed.
Lemma no_char_contains c p s : has_char c p = true -> has_char c s = false -> contains p s = false.
Proof.
  intros P N. destruct (contains p s) eqn:E; [|reflexivity]. apply contains_spec in E. destruct E as [a [b ->]].
  rewrite !has_char_app, P in N. rewrite orb_true_r in N. discriminate N.
Qed.
Lemma day_no_words s t : names_day s t -> (forall x, In x interval_words -> contains x s = false) /\ contains " u" s = false.
Proof.
  intros H. split.
  - intros x I. simpl in I.
    destruct I as [<-|[<-|[<-|[<-|[<-|[<-|[]]]]]]];
      [ apply (no_char_contains "k") | apply (no_char_contains "d") | apply (no_char_contains "k") | apply (no_char_contains "m") | apply (no_char_contains "q") | apply (no_char_contains "y") ];
      try reflexivity; apply (day_chars s t); auto.
  - apply (no_char_contains "u"); [reflexivity|]. apply (day_chars s t); auto.
Qed.
Lemma u_cons c t : Ascii.eqb " " c = false -> contains " u" (String c t) = contains " u" t.
Proof. intros E. cbn [contains]. unfold starts_with. cbn [strip_prefix]. rewrite E. reflexivity. Qed.
Lemma sp_cons t : starts_with "u" t = false -> contains " u" (String " " t) = contains " u" t.
Proof.
  intros E. cbn [contains]. unfold starts_with in *. cbn [strip_prefix] in *. change (Ascii.eqb " " " ") with true. cbn iota.
  destruct t as [|x t]; [reflexivity|]. destruct (Ascii.eqb "u" x); [discriminate E|reflexivity].
Qed.
Lemma rel_no_u r : numbers r -> contains " u" (write_rel r) = false.
Proof.
  intros N. assert (L : forall d s, is_number d -> contains " u" s = false -> contains " u" (d ++ s) = false).
  { intros d s D C. rewrite contains_digits; auto. apply D. }
  destruct r as [| |u pl|u pl|n u pl|n u pl|a u pl|n u pl|n u pl n' u' pl']; cbn [write_rel numbers] in *;
    try reflexivity; try (destruct u, pl; reflexivity).
  - destruct N as [N _]. apply L; auto; destruct u, pl; reflexivity.
  - apply L; auto; destruct u, pl; reflexivity.
  - destruct a as [| | |n]; try (destruct u, pl; reflexivity). destruct N as [N _]. apply L; auto; destruct u, pl; reflexivity.
  - apply L; auto; destruct u, pl; reflexivity.
  - destruct N as [N [N' _]]. apply L; auto.
    assert (C : contains " u" (n' ++ " " ++ word u' pl') = false) by (apply L; auto; destruct u', pl'; reflexivity).
    assert (Hd : starts_with "u" (n' ++ " " ++ word u' pl') = false).
    { destruct N' as [N1 N2]. destruct n' as [|x n']; [congruence|]. simpl in N1. apply andb_true_iff in N1. destruct N1 as [N1 _].
      unfold starts_with. cbn [append strip_prefix]. destruct (Ascii.eqb "u" x) eqn:E; auto. apply Ascii.eqb_eq in E. subst x. discriminate N1. }
    revert C Hd. generalize (n' ++ " " ++ word u' pl')%string. intros t C Hd. clear - C Hd.
    assert (G : contains " u" (" ago for " ++ t) = false).
    { cbn [append]. rewrite sp_cons by reflexivity. rewrite !u_cons by reflexivity. rewrite sp_cons by reflexivity.
      rewrite !u_cons by reflexivity. rewrite sp_cons by exact Hd. exact C. }
    revert G. change (" ago for " ++ t)%string with (String " " ("ago for " ++ t)). generalize ("ago for " ++ t)%string. clear. intros t G.
    destruct u, pl; cbn [append word]; rewrite sp_cons by reflexivity; rewrite !u_cons by reflexivity; exact G.
Qed.
Lemma side_no_u ws today s : side_ok ws today s -> contains " u" (written_side s) = false.
Proof. destruct s as [d t|r]; [apply day_no_words|]. intros [N _]. apply rel_no_u. exact N. Qed.
Lemma until_begin (w : option string) now g s : side_ok (week_day w) (now / 86400) s ->
  until_first now (set_week_start_day g w) (written_side s) = Ok (EGreaterOrEqual, CTime (begins (week_day w) (now / 86400) s)).
Proof.
  unfold until_first. destruct s as [d t|r]; cbn [side_ok written_side begins].
  - intros H. rewrite parse_simple_none by apply (day_no_words d t H). cbn [bind]. rewrite (named_value d t H). reflexivity.
  - intros [N [T [A B]]]. change (set_week_start_day g w) with (week_globals (week_day w)).
    rewrite (parse_rel (week_day w) now (week_day_range w) r N T A B). reflexivity.
Qed.
Lemma until_end (w : option string) now g s : side_ok (week_day w) (now / 86400) s ->
  until_second now (set_week_start_day g w) (written_side s) = Ok (ELessOrEqual, CTime (ends (week_day w) (now / 86400) s)).
Proof.
  unfold until_second. destruct s as [d t|r]; cbn [side_ok written_side ends].
  - intros H. rewrite parse_simple_none by apply (day_no_words d t H). cbn [bind]. rewrite (named_value d t H). reflexivity.
  - intros [N [T [A B]]]. change (set_week_start_day g w) with (week_globals (week_day w)).
    rewrite (parse_rel (week_day w) now (week_day_range w) r N T A B). reflexivity.
Qed.
Lemma until_not_reserved a b : ~ In (a ++ " until " ++ b)%string [""; "NULL"; "-NULL"; "TRUE"; "FALSE"].
Proof.
  intros I. assert (C : contains " until " (a ++ " until " ++ b) = true) by (apply contains_spec; exists a, b; reflexivity).
  cbn [In] in I. repeat (destruct I as [I|I]; [rewrite <- I in C; discriminate C|]). destruct I.
Qed.

(** "A until B", each side a written day or a relative date, is the range from the start of A to the end of B. *)
Theorem C19_until num now g w A B :
  side_ok (week_day w) (now / 86400) A -> side_ok (week_day w) (now / 86400) B ->
  filter_dict num now g (VStr (written_side A ++ " until " ++ written_side B)) w =
    (Ok [(EGreaterOrEqual, CTime (begins (week_day w) (now / 86400) A)); (ELessOrEqual, CTime (ends (week_day w) (now / 86400) B))], default_globals).
Proof.
  intros HA HB. unfold filter_dict. cbn [py_str]. pose proof (until_not_reserved (written_side A) (written_side B)) as R.
  set (s := (written_side A ++ " until " ++ written_side B)%string) in *.
  assert (K : forall x, In x [""; "NULL"; "-NULL"; "TRUE"; "FALSE"] -> String.eqb s x = false).
  { intros x X. apply String.eqb_neq. intros E. rewrite E in R. auto. }
  rewrite (K "") by (simpl; tauto). unfold parse_date_condition. cbn [py_str].
  assert (C : contains " until " s = true) by (apply contains_spec; exists (written_side A), (written_side B); reflexivity). rewrite C.
  assert (Sp : split_str " until " s = [written_side A; written_side B]).
  { unfold s. rewrite split_app; [|discriminate|apply fresh_until; eapply side_no_u; exact HA].
    f_equal. apply split_single; [discriminate|]. apply (contains_sub " u"); [reflexivity|]. eapply side_no_u; exact HB. }
  rewrite Sp, (until_begin w now g A HA). cbn [bind]. rewrite (until_end w now g B HB). cbn [bind].
  unfold clean_value. rewrite (K "NULL"), (K "-NULL"), (K "TRUE"), (K "FALSE") by (simpl; tauto). reflexivity.
Qed.
Print Assumptions C19_until.
(** "2024-01-15 until this week" on 2024-03-15, weeks from Monday *)
Example C19_until_case : let now := 86400 * (month_start (12 * 2024 + 2) + 14) + 43200 in
  let A := SDay "2024-01-15" (month_start (12 * 2024) + 14) in let B := SRel (RThis UWeek false) in
  side_ok (week_day None) (now / 86400) A /\ side_ok (week_day None) (now / 86400) B /\
  (written_side A ++ " until " ++ written_side B)%string = "2024-01-15 until this week" /\
  ends (week_day None) (now / 86400) B = last_second (month_start (12 * 2024 + 2) + 16).
Proof.
  cbv zeta. split; [|split; [|split; [reflexivity|vm_compute; reflexivity]]].
  - exists "2"%char, "0"%char, "2"%char, "4"%char, 2, 0, 2, 4, "01", 1, "15", 15.
    do 6 (split; [simpl; tauto|]). split; [reflexivity|]. cbv zeta. split; [lia|]. split; [left; lia|reflexivity].
  - split; [exact I|]. unfold valid_day. vm_compute. repeat split; discriminate.
Qed.
(** So a range that ends with a written day leaves out that day's instants after midnight. *)
Theorem C19_until_last_day_refuted : exists num now t A d,
  side_ok 0 (now / 86400) A /\ names_day "2024-01-31" d /\ t / 86400 = d /\ begins 0 (now / 86400) A <= t /\
  (forall x y, fst (filter_dict num now default_globals (VStr (written_side A ++ " until 2024-01-31")) None) = Ok [x; y] ->
     exists k, criterion num false (fst y) (snd y) = Ok k /\ eval_crit k (XTime t) = Some false).
Proof.
  assert (H1 : names_day "2024-01-01" (month_start (12 * 2024))).
  { exists "2"%char, "0"%char, "2"%char, "4"%char, 2, 0, 2, 4, "01", 1, "01", 1.
    do 6 (split; [simpl; tauto|]). split; [reflexivity|]. cbv zeta. split; [lia|]. split; [left; lia|reflexivity]. }
  assert (H2 : names_day "2024-01-31" (month_start (12 * 2024) + 30)).
  { exists "2"%char, "0"%char, "2"%char, "4"%char, 2, 0, 2, 4, "01", 1, "31", 31.
    do 6 (split; [simpl; tauto|]). split; [reflexivity|]. cbv zeta. split; [lia|]. split; [|reflexivity]. right; right; left. simpl. tauto. }
  exists (fun _ => Err ValueError), 0, (last_second (month_start (12 * 2024) + 30)), (SDay "2024-01-01" (month_start (12 * 2024))), (month_start (12 * 2024) + 30).
  split; [exact H1|]. split; [exact H2|]. split; [vm_compute; reflexivity|]. split; [vm_compute; discriminate|].
  intros x y E. pose proof (C19_until (fun _ => Err ValueError) 0 default_globals None (SDay "2024-01-01" (month_start (12 * 2024))) (SDay "2024-01-31" (month_start (12 * 2024) + 30)) H1 H2) as U.
  change (written_side (SDay "2024-01-31" (month_start (12 * 2024) + 30))) with "2024-01-31" in U. change (" until " ++ "2024-01-31")%string with " until 2024-01-31" in U.
  rewrite U in E. cbn [fst] in E. inversion E; subst y. eexists. split; [reflexivity|]. vm_compute. reflexivity.
Qed.
Print Assumptions C19_until_last_day_refuted.
(** A side that neither names a day nor holds one of the interval words is refused, and the configured week
    start then stays in force. *)
Theorem C19_until_refused num now g w A B :
  contains " u" A = false -> contains " until " B = false ->
  (forall x, In x interval_words -> contains x A = false) -> (forall t, ~ names_day A t) ->
  filter_dict num now g (VStr (A ++ " until " ++ B)) w = (Err ValueError, set_week_start_day g w).
Proof.
  intros U UB W N. unfold filter_dict. cbn [py_str]. pose proof (until_not_reserved A B) as R.
  set (s := (A ++ " until " ++ B)%string) in *.
  assert (String.eqb s "" = false) as -> by (apply String.eqb_neq; intros E; apply R; rewrite E; left; reflexivity).
  unfold parse_date_condition. cbn [py_str].
  assert (C : contains " until " s = true) by (apply contains_spec; exists A, B; reflexivity). rewrite C.
  assert (Sp : split_str " until " s = [A; B]).
  { unfold s. rewrite split_app; [|discriminate|apply fresh_until; exact U]. f_equal. apply split_single; [discriminate|exact UB]. }
  rewrite Sp. unfold until_first. rewrite parse_simple_none by exact W. cbn [bind]. rewrite (parse_no_day A N). reflexivity.
Qed.
Print Assumptions C19_until_refused.
(** Three parts are refused as well. *)
Theorem C19_until_three_parts num now g w A B C :
  contains " u" A = false -> contains " u" B = false ->
  filter_dict num now g (VStr (A ++ " until " ++ B ++ " until " ++ C)) w = (Err ValueError, set_week_start_day g w).
Proof.
  intros UA UB. unfold filter_dict. cbn [py_str]. pose proof (until_not_reserved A (B ++ " until " ++ C)) as R.
  set (s := (A ++ " until " ++ B ++ " until " ++ C)%string) in *.
  assert (String.eqb s "" = false) as -> by (apply String.eqb_neq; intros E; apply R; rewrite E; left; reflexivity).
  unfold parse_date_condition. cbn [py_str].
  assert (Cn : contains " until " s = true) by (apply contains_spec; exists A, (B ++ " until " ++ C)%string; reflexivity). rewrite Cn.
  unfold s. rewrite split_app; [|discriminate|apply fresh_until; exact UA]. rewrite split_app; [|discriminate|apply fresh_until; exact UB].
  pose proof (split_nonempty " until " C) as Ne. destruct (split_str " until " C); [congruence|reflexivity].
Qed.
Print Assumptions C19_until_three_parts.
Example C19_until_refused_case num : filter_dict num 0 default_globals (VStr "01/02/2024 until 2024-02-03") (Some "sunday") = (Err ValueError, Globals 6 5) /\
  filter_dict num 0 default_globals (VStr "2024-01-01 until 2024-01-02 until 2024-01-03") (Some "tuesday") = (Err ValueError, Globals 1 0).
Proof. split; vm_compute; reflexivity. Qed.
