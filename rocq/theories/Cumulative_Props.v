(** Specification and property theorems: C35, cumulative metrics. *)
From Coq Require Import List String ZArith Bool Lia.
From Verif Require Import PyBase PyStr Core_Model Merged_Model PyDate Cumulative_Model.
Import ListNotations.
Local Open Scope string_scope.
Local Open Scope list_scope.
Local Open Scope Z_scope.

(** ** The spine *)
Theorem C35_spine : forall s n d, 0 <= n -> (In d (days_from s n) <-> s <= d < s + n).
Proof.
  intros s n d N. unfold days_from. rewrite in_map_iff. split.
  - intros [i [<- I]]. apply in_seq in I. lia.
  - intros H. exists (Z.to_nat (d - s)). split; [lia|]. apply in_seq. lia.
Qed.
Print Assumptions C35_spine.

Theorem C35_warehouses : forall qt,
  (forall s n, date_spine qt = Ok (s, n) -> s = before_year 2000 /\ 39 * 365 < n /\ s + n <= before_year 2040 + 1)
  /\ (date_spine qt = Err NotImplemented <-> ~ In qt ["SNOWFLAKE"; "REDSHIFT"; "BIGQUERY"; "POSTGRES"])
  /\ (forall e, date_spine qt = Err e -> e = NotImplemented).
Proof.
  intros qt. unfold date_spine, mem, spine_start. cbn [existsb].
  assert (B0 : before_year 2000 = 730485) by reflexivity. assert (B1 : before_year 2040 = 745095) by reflexivity.
  destruct (String.eqb_spec qt "SNOWFLAKE") as [->|N1]; [|destruct (String.eqb_spec qt "REDSHIFT") as [->|N2]];
    [| |destruct (String.eqb_spec qt "BIGQUERY") as [->|N3]; [|destruct (String.eqb_spec qt "POSTGRES") as [->|N4]]];
    cbn [orb].
  5: { split; [intros s n H; discriminate H|]. split; [|intros e H; congruence]. split; [|reflexivity].
       intros _ [H|[H|[H|[H|[]]]]]; subst qt; congruence. }
  all: split; [intros s n H; injection H as <- <-; lia|]; split; [|intros e H; discriminate H];
    split; [intros H; discriminate H|intros H; exfalso; apply H; cbn; tauto].
Qed.
Print Assumptions C35_warehouses.

(** The Snowflake and Redshift spine ends ten days before the others, on 2039-12-21 *)
Theorem C35_spine_end_refuted : exists s n s' n', date_spine "SNOWFLAKE" = Ok (s, n) /\ date_spine "BIGQUERY" = Ok (s', n')
  /\ ~ In (before_year 2040 - 1) (days_from s n) /\ In (before_year 2040 - 1) (days_from s' n').
Proof.
  exists 730485, 14600, 730485, 14611. split; [reflexivity|]. split; [reflexivity|].
  change (before_year 2040) with 745095. rewrite !C35_spine; lia.
Qed.
Print Assumptions C35_spine_end_refuted.

(** ** Auxiliary *)
Lemma zdedup_In seen l x : In x (zdedup seen l) <-> In x l /\ ~ In x seen.
Proof.
  revert seen. induction l as [|y r IH]; intros seen; simpl; [tauto|].
  assert (E : existsb (Z.eqb y) seen = true <-> In y seen).
  { rewrite existsb_exists. split. intros [z [A B]]. apply Z.eqb_eq in B. now subst. intros A. exists y. split; auto. apply Z.eqb_refl. }
  destruct (existsb (Z.eqb y) seen).
  - rewrite IH. assert (In y seen) by now apply E. split; [tauto|]. intros [[<-|A] B]; tauto.
  - assert (~ In y seen) by (intros C; apply E in C; discriminate). simpl. rewrite IH. simpl.
    destruct (Z.eq_dec y x) as [->|N]; tauto.
Qed.
Lemma zdedup_NoDup seen l : NoDup (zdedup seen l).
Proof.
  revert seen. induction l as [|y r IH]; intros seen; simpl; [constructor|].
  destruct existsb; auto. constructor; auto. rewrite zdedup_In. simpl. tauto.
Qed.
Lemma keq_eq a b : keq a b = true <-> a = b.
Proof.
  revert b. induction a as [|x a IH]; intros [|y b]; simpl; try (split; [discriminate|discriminate]); [tauto|].
  rewrite andb_true_iff, IH. destruct x as [x|], y as [y|]; try (split; [intros [? ?]; discriminate|intros H; injection H as H1 H2; discriminate]).
  - rewrite String.eqb_eq. split; [intros [-> ->]; reflexivity|intros H; injection H as <- <-; auto].
  - split; [intros [_ ->]; reflexivity|intros H; injection H as <-; auto].
Qed.
Lemma gdedup_In seen l x : In x (gdedup seen l) <-> In x l /\ ~ In x seen.
Proof.
  revert seen. induction l as [|y r IH]; intros seen; simpl; [tauto|].
  assert (E : existsb (keq y) seen = true <-> In y seen).
  { rewrite existsb_exists. split. intros [z [A B]]. apply keq_eq in B. now subst. intros A. exists y. split; auto. now apply keq_eq. }
  destruct (existsb (keq y) seen).
  - rewrite IH. assert (In y seen) by now apply E. split; [tauto|]. intros [[<-|A] B]; tauto.
  - assert (~ In y seen) by (intros C; apply E in C; discriminate). simpl. rewrite IH. simpl.
    destruct (keq y x) eqn:K.
    + apply keq_eq in K. subst. tauto.
    + assert (y <> x) by (intros C; apply keq_eq in C; congruence). tauto.
Qed.
Lemma gdedup_NoDup seen l : NoDup (gdedup seen l).
Proof.
  revert seen. induction l as [|y r IH]; intros seen; simpl; [constructor|].
  destruct existsb; auto. constructor; auto. rewrite gdedup_In. simpl. tauto.
Qed.
Lemma filter_filter {A} (f g : A -> bool) l : filter f (filter g l) = filter (fun x => g x && f x) l.
Proof. induction l as [|x l IH]; simpl; auto. destruct (g x); simpl; rewrite IH; auto. Qed.

(** ** One metric with its date among the dimensions *)
(** the rows the documentation promises for period [p] and group [g]: of the group, passing the conditions, dated
    in a period up to p, each once *)
Definition rows_until {V} (period : Z -> Z) where_row cumulative_where (rows : list (crow V)) (g : list (option string)) (p : Z) (rs : list (crow V)) : Prop :=
  exists keep, rs = filter keep rows
  /\ forall r, keep r = true <-> where_row r = true /\ cr_group r = g /\ exists d, cr_day r = Some d /\ period d <= p /\ cumulative_where r p = true.

Section P.
  Context {V : Type}.
  Notation crow := (crow V).
  Variable period : Z -> Z.
  Variable where_row : crow -> bool.
  Variable where_period : Z -> bool.
  Variable cumulative_where : crow -> Z -> bool.
  Variable today : Z.
  Notation run := (with_date period where_row where_period cumulative_where today).

  Lemma here_eq ps rows p : NoDup ps -> In p ps ->
    map snd (filter (fun x : Z * crow => fst x =? p) (joined period cumulative_where ps rows)) = filter (fun r => counted period cumulative_where r p) rows.
  Proof.
    intros N I. unfold joined. induction ps as [|q ps IH]; [destruct I|]. inversion N as [|? ? NI N']; subst.
    cbn [flat_map]. rewrite filter_app, map_app.
    assert (Q : forall l, filter (fun x : Z * crow => fst x =? p) (map (pair q) l) = if q =? p then map (pair q) l else []).
    { induction l as [|r l IHl]; simpl; [now destruct (q =? p)|]. rewrite IHl. now destruct (q =? p). }
    rewrite Q. destruct (Z.eqb_spec q p) as [->|NE].
    - rewrite map_map. cbn. rewrite map_id.
      assert (E : filter (fun x : Z * crow => fst x =? p) (flat_map (fun p0 => map (pair p0) (filter (fun r => counted period cumulative_where r p0) rows)) ps) = []).
      { clear - NI. induction ps as [|q ps IH]; simpl; auto. rewrite filter_app, IH by (intros C; apply NI; now right).
        rewrite app_nil_r. assert (q <> p) by (intros ->; apply NI; now left).
        clear IH NI. induction (filter _ rows) as [|r l IHl]; simpl; auto. destruct (Z.eqb_spec q p); [contradiction|auto]. }
      rewrite E. simpl. now rewrite app_nil_r.
    - cbn. apply IH; auto. destruct I as [->|I]; [contradiction|auto].
  Qed.

  Lemma spine_rows_In days p : In p (spine_rows period today days) <-> (exists d, In d days /\ period d = p) /\ p <= today.
  Proof.
    unfold spine_rows, periods. rewrite filter_In, zdedup_In, in_map_iff, Z.leb_le. simpl.
    split; [intros [[[d [A B]] _] C]; eauto|intros [[d [A B]] C]; split; [split; [exists d; auto|tauto]|auto]].
  Qed.
  Lemma spine_rows_NoDup days : NoDup (spine_rows period today days).
  Proof. apply NoDup_filter, zdedup_NoDup. Qed.

  (** Each value of the result is the aggregate of exactly the rows of its group dated up to its period; there is
      a result for every period up to today that passes the date conditions, for every group with such a row. *)
  Theorem C35_values : forall days rows p g rs,
    In (p, g, rs) (run days rows) <->
    (exists d, In d days /\ period d = p) /\ p <= today /\ where_period p = true
    /\ rows_until period where_row cumulative_where rows g p rs /\ rs <> [].
  Proof.
    intros days rows p g rs. unfold with_date.
    assert (K : forall p, rows_until period where_row cumulative_where rows g p rs <->
      rs = filter (fun r => keq (cr_group r) g) (filter (fun r => counted period cumulative_where r p) (subquery where_row rows))).
    { intros q. unfold subquery. rewrite !filter_filter.
      assert (S : forall r, where_row r && (counted period cumulative_where r q && keq (cr_group r) g) = true <->
        where_row r = true /\ cr_group r = g /\ exists d, cr_day r = Some d /\ period d <= q /\ cumulative_where r q = true).
      { intros r. rewrite !andb_true_iff, keq_eq. unfold counted. destruct (cr_day r) as [d|].
        - rewrite andb_true_iff, Z.leb_le. split; [intros [A [[B C] D]]; repeat split; auto; exists d; auto|].
          intros [A [B [d' [E [C D]]]]]. injection E as <-. tauto.
        - split; [intros [_ [H _]]; discriminate H|intros [_ [_ [d [H _]]]]; discriminate H]. }
      unfold rows_until. split.
      - intros [keep [-> H]]. apply filter_ext. intros r. destruct (keep r) eqn:E.
        + symmetry. now apply S, H.
        + destruct (_ && _) eqn:E'; auto. apply S, H in E'. congruence.
      - intros ->. eexists. split; [reflexivity|exact S]. }
    rewrite in_flat_map. split.
    - intros [q [I H]]. rewrite (here_eq _ _ _ (spine_rows_NoDup days) I) in H.
      destruct (where_period q) eqn:W; [|destruct H]. apply in_map_iff in H. destruct H as [g' [E G]]. injection E as -> -> <-.
      apply spine_rows_In in I. destruct I as [I1 I2]. repeat split; auto.
      + now apply K.
      + apply gdedup_In in G. destruct G as [G _]. apply in_map_iff in G. destruct G as [r [E R]].
        intros C. assert (X : In r []); [|destruct X]. rewrite <- C. apply filter_In. split; auto. now apply keq_eq.
    - intros [I1 [I2 [W [R NE]]]]. exists p. assert (I : In p (spine_rows period today days)) by now apply spine_rows_In.
      split; auto. rewrite (here_eq _ _ _ (spine_rows_NoDup days) I), W. apply in_map_iff. exists g. apply K in R. split; [now rewrite R|].
      apply gdedup_In. split; [|intros []]. destruct rs as [|r rs]; [congruence|].
      assert (J : In r (filter (fun r => keq (cr_group r) g) (filter (fun r => counted period cumulative_where r p) (subquery where_row rows)))) by (rewrite <- R; now left).
      apply filter_In in J. destruct J as [J1 J2]. apply keq_eq in J2. apply in_map_iff. eauto.
  Qed.

  (** one result per period and group *)
  Theorem C35_one_row : forall days rows, NoDup (map fst (run days rows)).
  Proof.
    intros days rows. unfold with_date. set (F := fun p => _).
    assert (G : forall p, NoDup (map fst (F p)) /\ forall x, In x (map fst (F p)) -> fst x = p).
    { intros p. unfold F. destruct (where_period p); [|split; [constructor|intros x []]].
      rewrite map_map. cbn. split.
      - apply FinFun.Injective_map_NoDup; [|apply gdedup_NoDup]. intros a b E. now injection E.
      - intros x I. apply in_map_iff in I. destruct I as [g [<- _]]. reflexivity. }
    clearbody F. pose proof (spine_rows_NoDup days) as N. induction N as [|p ps NI N IH]; [constructor|].
    cbn [flat_map]. rewrite map_app. destruct (G p) as [G1 G2].
    assert (D : forall x, In x (map fst (F p)) -> ~ In x (map fst (flat_map F ps))).
    { intros x I J. apply NI. apply G2 in I. apply in_map_iff in J. destruct J as [y [E J]]. apply in_flat_map in J. destruct J as [q [Q J]].
      assert (fst x = q) as <-; [|now rewrite I in Q]. apply (G q). apply in_map_iff. eauto. }
    clear G G2. induction (map fst (F p)) as [|x l IHl]; simpl; auto. inversion G1; subst. constructor.
    - rewrite in_app_iff. intros [A|A]; [contradiction|]. apply (D x); simpl; auto.
    - apply IHl; auto. intros y Y. apply D. now right.
  Qed.

  (** with a proper truncation, "dated in a period up to p" is "dated no later than some day of p" *)
  Theorem C35_on_or_before : forall d p q, (forall a b, a <= b -> period a <= period b) -> period q = p ->
    (period d <= p <-> exists d', d <= d' /\ period d' = p).
  Proof.
    intros d p q M <-. split.
    - intros H. destruct (Z_le_gt_dec d q); [eauto|]. exists d. split; [lia|]. specialize (M q d ltac:(lia)). lia.
    - intros [d' [A B]]. rewrite <- B. now apply M.
  Qed.

  (** a sum of values that are not negative never decreases, when there is no cumulative_where *)
  Theorem C35_monotone : forall days rows (v : crow -> Z) p p' g rs,
    (forall r q, cumulative_where r q = true) -> (forall r, 0 <= v r) ->
    In (p, g, rs) (run days rows) -> p <= p' -> (exists d, In d days /\ period d = p') -> p' <= today -> where_period p' = true ->
    exists rs', In (p', g, rs') (run days rows)
    /\ fold_right Z.add 0 (map v rs) <= fold_right Z.add 0 (map v rs').
  Proof.
    intros days rows v p p' g rs C V0 H L D T W. apply C35_values in H. destruct H as [_ [_ [_ [[keep [E K]] NE]]]].
    set (keep' := fun r => where_row r && counted period cumulative_where r p' && keq (cr_group r) g).
    assert (K' : forall r, keep' r = true <-> where_row r = true /\ cr_group r = g /\ exists d, cr_day r = Some d /\ period d <= p' /\ cumulative_where r p' = true).
    { intros r. unfold keep'. rewrite !andb_true_iff, keq_eq. unfold counted. destruct (cr_day r) as [d|].
      - rewrite andb_true_iff, Z.leb_le. split; [intros [[A [B B']] D']; repeat split; auto; exists d; auto|].
        intros [A [B [d' [E' [F G]]]]]. injection E' as <-. tauto.
      - split; [intros [[_ H] _]; discriminate H|intros [_ [_ [d [H _]]]]; discriminate H]. }
    assert (S : forall r, keep r = true -> keep' r = true).
    { intros r H. apply K in H. apply K'. destruct H as [A [B [d [F [G _]]]]]. repeat split; auto. exists d. repeat split; auto. lia. }
    exists (filter keep' rows). split.
    - apply C35_values. repeat split; auto. { exists keep'. auto. }
      destruct rs as [|r rs]; [congruence|]. assert (I : In r (filter keep rows)) by (rewrite <- E; now left).
      apply filter_In in I. intros X. assert (J : In r []); [|destruct J]. rewrite <- X. apply filter_In. split; [tauto|]. apply S. tauto.
    - subst rs. clear NE. induction rows as [|r rows IH]; simpl; [lia|]. specialize (V0 r) as V1. destruct (keep r) eqn:A.
      + rewrite (S r A). simpl. lia.
      + destruct (keep' r); simpl; lia.
  Qed.

  (** ** Without its date among the dimensions *)
  Notation total := (without_date period where_row cumulative_where today true).
  (** every row is aggregated once for every period of the spine, up to today, from its own period on *)
  Theorem C35_without_date : forall days rows (v : crow -> Z),
    exists l, total days rows = [([], l)]
    /\ fold_right Z.add 0 (map v l)
       = fold_right Z.add 0 (map (fun r => if where_row r then v r * Z.of_nat (List.length (filter (counted period cumulative_where r) (spine_rows period today days))) else 0) rows).
  Proof.
    intros days rows v. eexists. split; [reflexivity|]. set (ps := spine_rows _ _ _). clearbody ps. unfold joined.
    assert (A : forall l1 l2, fold_right Z.add 0 (l1 ++ l2) = fold_right Z.add 0 l1 + fold_right Z.add 0 l2).
    { intros l1 l2. induction l1; simpl; lia. }
    induction ps as [|p ps IH].
    - simpl. induction rows as [|r rows IHr]; simpl; auto. destruct (where_row r); lia.
    - cbn [flat_map]. rewrite !map_app, A, IH, !map_map. cbn [snd]. clear IH. unfold subquery. induction rows as [|r rows IHr]; simpl; auto. simpl in IHr.
      destruct (where_row r); simpl; [|lia]. destruct (counted period cumulative_where r p); cbn [map fold_right List.length]; lia.
  Qed.

  (** right when only one period of the spine counts the rows *)
  Corollary C35_total_partial : forall days rows (v : crow -> Z),
    (forall r, where_row r = true -> List.length (filter (counted period cumulative_where r) (spine_rows period today days)) = 1%nat) ->
    exists l, total days rows = [([], l)] /\ fold_right Z.add 0 (map v l) = fold_right Z.add 0 (map v (filter where_row rows)).
  Proof.
    intros days rows v H. destruct (C35_without_date days rows v) as [l [E S]]. exists l. split; auto. rewrite S. clear S E.
    induction rows as [|r rows IH]; simpl; auto. rewrite IH. destruct (where_row r) eqn:W; simpl; [|lia]. rewrite H by auto. lia.
  Qed.
End P.
Print Assumptions C35_values.
Print Assumptions C35_one_row.
Print Assumptions C35_on_or_before.
Print Assumptions C35_monotone.
Print Assumptions C35_without_date.
Print Assumptions C35_total_partial.

(** three orders over two months, queried by month *)
Definition monthly (d : Z) : Z := month_start (month_of d).
Definition d0 : Z := before_year 2020.
Definition orders : list (crow Z) :=
  [CRow (Some (d0 + 3)) [Some "web"] 10; CRow (Some (d0 + 40)) [Some "web"] 7; CRow (Some (d0 + 5)) [Some "shop"] 1; CRow None [Some "shop"] 100].
Definition spine : list Z := days_from d0 60.
Example cumulative_example :
  map (fun x => (fst x, map cr_data (snd x)))
    (with_date monthly (fun _ => true) (fun _ => true) (fun _ _ => true) (d0 + 59) spine orders)
  = [((d0, [Some "web"]), [10]); ((d0, [Some "shop"]), [1]); ((d0 + 31, [Some "web"]), [10; 7]); ((d0 + 31, [Some "shop"]), [1])].
Proof. vm_compute. reflexivity. Qed.
Example monthly_total_example : (forall r, In r [CRow (Some (d0 + 40)) [Some "web"] 7] ->
  List.length (filter (counted monthly (fun _ _ => true) r) (spine_rows monthly (d0 + 59) spine)) = 1%nat).
Proof. intros r [<-|[]]. vm_compute. reflexivity. Qed.

(** The cumulative total without a date dimension is not the aggregate of all rows: two orders, ten days, one
    worth 10 on the first day and one worth 1 on the last, add up to 101. *)
Theorem C35_total_refuted : exists (rows : list (crow Z)) days today l,
  without_date (fun d => d) (fun _ => true) (fun _ _ => true) today true days rows = [([], l)]
  /\ (forall r, In r rows -> exists d, cr_day r = Some d /\ In d days /\ d <= today)
  /\ fold_right Z.add 0 (map cr_data rows) = 11 /\ fold_right Z.add 0 (map cr_data l) = 101.
Proof.
  exists [CRow (Some 100) [] 10; CRow (Some 109) [] 1], (days_from 100 10), 109. eexists. split; [vm_compute; reflexivity|].
  split; [|split; vm_compute; reflexivity]. intros r [<-|[<-|[]]]; eexists; (split; [reflexivity|]); (split; [apply C35_spine; lia|lia]).
Qed.
Print Assumptions C35_total_refuted.

(** Without a date dimension the result does not depend on the conditions on the date at all. *)
Theorem C35_date_condition_refuted : exists (rows : list (crow Z)) (where_period : Z -> bool) days today,
  (forall p, where_period p = false)
  /\ with_date (fun d => d) (fun _ => true) where_period (fun _ _ => true) today days rows = []
  /\ map (fun x => map cr_data (snd x)) (without_date (fun d => d) (fun _ => true) (fun _ _ => true) today true days rows) = [[5]].
Proof. exists [CRow (Some 100) [] 5], (fun _ => false), [100], 100. split; [auto|]. split; reflexivity. Qed.
Print Assumptions C35_date_condition_refuted.

(** ** The final query *)
Section F.
  Context {W : Type}.
  Notation key := (list (option string)).
  Definition no_null (k : key) : Prop := forall x, In x k -> x <> None.
  Lemma sql_keq_eq a b : sql_keq a b = true <-> a = b /\ no_null a.
  Proof.
    revert b. induction a as [|x a IH]; intros b.
    - destruct b; simpl; split; try discriminate; [intros _; split; auto; intros x []|tauto|intros [H _]; discriminate].
    - destruct x as [x|].
      + destruct b as [|[y|] b]; simpl; try (split; [discriminate|intros [H _]; discriminate H]).
        rewrite andb_true_iff, String.eqb_eq, IH. split.
        * intros [-> [-> N]]. split; auto. intros z [<-|Z]; [discriminate|auto].
        * intros [H N]. injection H as <- <-. repeat split; auto. intros z Z. apply N. now right.
      + simpl. split; [discriminate|]. intros [_ N]. exfalso. apply (N None); [now left|reflexivity].
  Qed.
  (** what a metric's own query says for a key: a key with a NULL matches nothing *)
  Definition value_at (t : list (key * W)) (k : key) (o : option W) : Prop :=
    match o with Some w => In (k, w) t /\ no_null k | None => ~ (no_null k /\ In k (map fst t)) end.

  Lemma left_join_rows base (t : list (key * W)) : NoDup (map fst t) ->
    Forall2 (fun b r => fst r = fst b /\ exists o, snd r = snd b ++ [o] /\ value_at t (fst b) o) base (left_join base t).
  Proof.
    intros N. induction base as [|[k l] base IH]; [constructor|]. unfold left_join. cbn [flat_map fst snd]. fold (left_join base t).
    assert (U : (filter (fun x : key * W => sql_keq k (fst x)) t = [] /\ ~ (no_null k /\ In k (map fst t)))
                \/ exists w, filter (fun x : key * W => sql_keq k (fst x)) t = [(k, w)] /\ In (k, w) t /\ no_null k).
    { clear IH. induction t as [|[k' w] t IH]; [left; split; [reflexivity|simpl; tauto]|]. inversion N as [|? ? NI N']; subst. simpl in NI.
      cbn [filter fst]. destruct (sql_keq k k') eqn:E.
      - apply sql_keq_eq in E. destruct E as [<- NN]. right. exists w. split; [|split; [now left|auto]]. f_equal.
        destruct (IH N') as [[H _]|[w' [H [I _]]]]; auto. exfalso. apply NI. apply in_map_iff. exists (k, w'). auto.
      - destruct (IH N') as [[H A]|[w' [H [I A]]]]; [left; split; auto|right; exists w'; split; [auto|split; [now right|auto]]].
        simpl. intros [NN [->|C]]; [|tauto]. assert (sql_keq k k = true) by (apply sql_keq_eq; auto). congruence. }
    destruct U as [[-> A]|[w [-> [I NN]]]]; cbn [map app]; constructor; auto; (split; [reflexivity|]); cbn [fst snd].
    - exists None. split; auto.
    - exists (Some w). split; auto. split; auto.
  Qed.

  (** When no metric repeats a key, the result has the base's rows, in the base's order; and in each the values
      that the other metrics have for the same key. *)
  Theorem C35_final : forall (base : list (key * W)) others, Forall (fun t => NoDup (map fst t)) others ->
    Forall2 (fun b r => fst r = fst b /\ exists os, snd r = Some (snd b) :: os /\ Forall2 (fun t o => value_at t (fst b) o) others os)
      base (final base others).
  Proof.
    intros base others N. unfold final.
    assert (G : forall (acc : list (key * list (option W))), Forall2 (fun b r => fst r = fst b /\ exists os, snd r = snd b ++ os /\ Forall2 (fun t o => value_at t (fst b) o) others os)
                 acc (fold_left left_join others acc)).
    { induction N as [|t others N1 N2 IH]; intros acc; cbn [fold_left].
      - induction acc; constructor; auto. split; auto. exists []. rewrite app_nil_r. auto.
      - specialize (IH (left_join acc t)). pose proof (left_join_rows acc t N1) as L.
        revert IH. generalize (fold_left left_join others (left_join acc t)). revert L. generalize (left_join acc t). intros mid L.
        induction L as [|b m acc' mid' [E [o [S V]]] L IHL]; intros fin IH; inversion IH as [|? r ? fin' [E' [os [S' V']]] IH']; subst; constructor.
        + split; [congruence|]. exists (o :: os). split; [rewrite S', S, <- app_assoc; reflexivity|]. constructor; auto. now rewrite E in V'.
        + now apply IHL. }
    specialize (G (map (fun x => (fst x, [Some (snd x)])) base)). revert G. generalize (fold_left left_join others (map (fun x => (fst x, [Some (snd x)])) base)).
    induction base as [|b base IH]; intros fin G; inversion G as [|? r ? fin' H G']; subst; constructor.
    - cbn [fst snd app] in H. exact H.
    - now apply IH.
  Qed.
End F.
Print Assumptions C35_final.
Example final_example :
  final [([Some "jan"], 1); ([Some "feb"], 2)] [[([Some "jan"], 10); ([Some "feb"], 20)]; [([Some "feb"], 7)]]
  = [([Some "jan"], [Some 1; Some 10; None]); ([Some "feb"], [Some 2; Some 20; Some 7])].
Proof. reflexivity. Qed.

(** A period or group which the base does not have is lost, and so is the value of a group whose dimension is NULL *)
Theorem C35_lost_refuted :
  (exists (base t : list (list (option string) * Z)), In ([Some "mar"], 30) t /\ forall r, In r (final base [t]) -> fst r <> [Some "mar"])
  /\ (exists (base t : list (list (option string) * Z)), In ([None], 30) t /\ final base [t] = [([None], [Some 1; None])]).
Proof.
  split.
  - exists [([Some "jan"], 1)], [([Some "jan"], 10); ([Some "mar"], 30)]. split; [now right; left|]. intros r [<-|[]]. discriminate.
  - exists [([None], 1)], [([None], 30)]. split; [now left|reflexivity].
Qed.
Print Assumptions C35_lost_refuted.

(** ** The split into cumulative and other metrics *)
(** a metric needs the metrics of its sql when it is a number that involves a cumulative metric, else itself *)
Definition needs (m x : cmetric) : Prop :=
  match m with CM _ c number refs =>
    if number then if c || existsb type_cumulative refs then In x refs else x = m else x = m end.
Theorem C35_separate : forall ms c n, separate_metrics ms = (c, n) ->
  (forall x, In x c -> is_cumulative x = true /\ exists m, In m ms /\ needs m x)
  /\ (forall x, In x n -> is_cumulative x = false /\ exists m, In m ms /\ needs m x)
  /\ (forall m x, In m ms -> needs m x -> In (cm_id x) (map cm_id (if is_cumulative x then c else n)))
  /\ NoDup (map cm_id c) /\ NoDup (map cm_id n).
Proof.
  intros ms c n H. injection H as <- <-.
  assert (S : forall m x, (In x (fst (separate_one m)) <-> is_cumulative x = true /\ needs m x) /\ (In x (snd (separate_one m)) <-> is_cumulative x = false /\ needs m x)).
  { intros [i cu nu refs] x. unfold separate_one, needs.
    assert (E : is_cumulative (CM i cu nu refs) = cu || existsb type_cumulative refs) by reflexivity.
    destruct (is_cumulative (CM i cu nu refs)) eqn:B; destruct nu; rewrite <- ?E; cbn [fst snd].
    - rewrite !filter_In. destruct (is_cumulative x); cbn; split; split; try tauto; intros [? ?]; try discriminate; auto.
    - cbn. split; split; try tauto.
      + intros [<-|[]]. auto.
      + intros [_ ->]. auto.
      + intros [A ->]. congruence.
    - cbn. split; split; try tauto.
      + intros [A ->]. congruence.
      + intros [<-|[]]. auto.
      + intros [_ ->]. auto.
    - cbn. split; split; try tauto.
      + intros [A ->]. congruence.
      + intros [<-|[]]. auto.
      + intros [_ ->]. auto. }
  assert (I : forall f x, In x (dedup_by cm_id (flat_map f ms)) -> exists m, In m ms /\ In x (f m)).
  { intros f x X. apply dedup_by_aux_In in X. destruct X as [X _]. apply in_flat_map in X. exact X. }
  assert (J : forall f m x, In m ms -> In x (f m) -> In (cm_id x) (map cm_id (dedup_by cm_id (flat_map f ms)))).
  { intros f m x M X. apply dedup_by_aux_keys. split; [|intros []]. apply in_map. apply in_flat_map. eauto. }
  split; [|split; [|split; [|split; apply dedup_by_aux_NoDup]]].
  - intros x X. apply I in X. destruct X as [m [M X]]. apply S in X. destruct X. eauto.
  - intros x X. apply I in X. destruct X as [m [M X]]. apply S in X. destruct X. eauto.
  - intros m x M X. destruct (is_cumulative x) eqn:E; eapply J; eauto; apply S; auto.
Qed.
Print Assumptions C35_separate.
Example separate_example :
  separate_metrics [CM "orders.ltv" false true [CM "orders.total" true false []; CM "orders.n" false false []]; CM "orders.n" false false []]
  = ([CM "orders.total" true false []], [CM "orders.n" false false []]).
Proof. reflexivity. Qed.

(** ** The design afterwards *)
(** a query that is generated leaves the lookup of the design as it was, and its grouping flag if that was off *)
Theorem C35_design_partial : forall F Q (generate : design F -> res Q) ms flag d q d',
  run_subquery generate ms flag d = (Ok q, d') ->
  ds_lookup d' = ds_lookup d /\ (ds_no_group_by d = false -> d' = d)
  /\ exists g, generate g = Ok q /\ ds_no_group_by g = flag
     /\ (forall k m, In (k, (false, m)) (ds_lookup g) -> In (k, (false, m)) (ds_lookup d))
     /\ (forall k m, In (k, (true, m)) (ds_lookup g) -> In (k, m) ms).
Proof.
  intros F Q generate ms flag [lk ng] q d' H. unfold run_subquery in H. cbn [ds_lookup ds_no_group_by] in *.
  set (lk1 := fold_left _ _ _) in H. destruct (generate (Design lk1 flag)) as [x|e] eqn:G; [|discriminate H].
  injection H as <- <-. split; [reflexivity|]. split; [intros ->; reflexivity|]. exists (Design lk1 flag). split; auto. split; auto.
  cbn [ds_lookup]. unfold lk1. clear G.
  assert (S : forall (l0 : list (string * (bool * F))) k k' b (m : F) v, In (k, (b, m)) (set_item k' v l0) -> In (k, (b, m)) l0 \/ (k = k' /\ v = (b, m))).
  { induction l0 as [|[k1 v1] l0 IH]; intros k k' b m v I; simpl in I.
    - destruct I as [I|[]]. injection I as <- ->. auto.
    - destruct (String.eqb_spec k' k1) as [->|NE].
      + destruct I as [I|I]; [injection I as <- ->; auto|left; now right].
      + destruct I as [I|I]; [left; now left|]. apply IH in I. destruct I; [left; now right|auto]. }
  assert (A : forall ms' (l0 : list (string * (bool * F))) k b (m : F), In (k, (b, m)) (fold_left (fun l m => set_item (fst m) (true, snd m) l) ms' l0) -> In (k, (b, m)) l0 \/ (b = true /\ In (k, m) ms')).
  { induction ms' as [|[k1 m1] ms' IH]; intros l0 k b m I; simpl in I; auto. apply IH in I. destruct I as [I|[-> I]].
    - apply S in I. destruct I as [I|[-> E]]; auto. injection E as <- <-. right. split; auto. now left.
    - right. split; auto. now right. }
  split; intros k m I; apply A in I.
  - destruct I as [I|[E _]]; [|discriminate E]. apply filter_In in I. tauto.
  - destruct I as [I|[_ I]]; auto. apply filter_In in I. destruct I as [_ I]. discriminate I.
Qed.
Print Assumptions C35_design_partial.
(** A design that asks for no grouping is left grouping; and a failing sub query leaves its own lookup behind. *)
Theorem C35_design_refuted :
  (exists (generate : design nat -> res string) d q d', run_subquery generate [] true d = (Ok q, d') /\ d' <> d)
  /\ (exists (generate : design nat -> res string) d e d', ds_no_group_by d = false /\ run_subquery generate [] true d = (Err e, d') /\ ds_lookup d' <> ds_lookup d).
Proof.
  split.
  - exists (fun _ => Ok "q"), (Design [] true). eexists. eexists. split; [reflexivity|]. discriminate.
  - exists (fun _ => Err JoinError), (Design [("orders.n", (true, 1%nat))] false). eexists. eexists. split; [reflexivity|]. split; [reflexivity|]. discriminate.
Qed.
Print Assumptions C35_design_refuted.
