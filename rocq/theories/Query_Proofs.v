(** Lemmas for the whole query. *)
From Coq Require Import List String Ascii Bool QArith Qround Lia Permutation.
From Verif Require Import PyBase PyStr PySort PyList JoinGraph_Model JoinGraph_Spec JoinOrder_Model JoinOrder_Spec Rel_Model Rel_Spec Rel_Proofs Rel_Props
  Agg_Model Agg_Spec Agg_Proofs Agg_Props Clause_Model Clause_Spec Clause_Proofs Clause_Props Query_Model Query_Spec.
Import ListNotations.
Local Open Scope string_scope.
Local Open Scope list_scope.
Local Open Scope nat_scope.

(** ** The median of a list does not depend on its order *)
Fixpoint count_le (q : Q) (l : list Q) : nat := match l with [] => 0 | x :: r => (if Qle_bool x q then 1 else 0) + count_le q r end.
Lemma count_le_perm q l m : Permutation l m -> count_le q l = count_le q m.
Proof. induction 1; simpl; lia. Qed.
Lemma count_le_none q l : (forall y, In y l -> Qle_bool y q = false) -> count_le q l = 0.
Proof. induction l as [|x l IH]; intros H; simpl; auto. rewrite (H x) by (left; auto). apply IH. intros; apply H; right; auto. Qed.
Lemma nth_le q : forall s i, sorted Qle_bool s -> i < List.length s -> (Qle (nth i s 0%Q) q <-> i < count_le q s).
Proof.
  intros s i H. revert i. induction H as [|x s Hx Hs IH]; intros i Hi; [simpl in Hi; lia|].
  cbn [count_le]. destruct (Qle_bool x q) eqn:E.
  - destruct i as [|i]; cbn [nth]; [apply Qle_bool_iff in E; split; [lia|auto]|]. cbn [List.length] in Hi. rewrite IH by lia. lia.
  - assert (Z : count_le q s = 0).
    { apply count_le_none. intros y Y. destruct (Qle_bool y q) eqn:F; auto. exfalso.
      specialize (Hx y Y). apply Qle_bool_iff in Hx. apply Qle_bool_iff in F.
      assert (K : Qle x q) by (eapply Qle_trans; eauto). apply Qle_bool_iff in K. congruence. }
    rewrite Z. split; [|lia]. intros L. exfalso.
    assert (K : Qle x q).
    { destruct i as [|i]; cbn [nth] in L; auto. cbn [List.length] in Hi.
      eapply Qle_trans; [|exact L]. apply Qle_bool_iff. apply Hx. apply nth_In. lia. }
    apply Qle_bool_iff in K. congruence.
Qed.
Lemma isort_nth_perm l m i : Permutation l m -> i < List.length l -> Qeq (nth i (isort Qle_bool l) 0%Q) (nth i (isort Qle_bool m) 0%Q).
Proof.
  intros P Hi.
  assert (T : forall x y, Qle_bool x y = true \/ Qle_bool y x = true).
  { intros x y. rewrite !Qle_bool_iff. destruct (Qlt_le_dec x y); [left; apply Qlt_le_weak; auto|right; auto]. }
  assert (R : forall x y z, Qle_bool x y = true -> Qle_bool y z = true -> Qle_bool x z = true).
  { intros x y z. rewrite !Qle_bool_iff. apply Qle_trans. }
  assert (S1 : sorted Qle_bool (isort Qle_bool l)) by (apply isort_sorted; auto).
  assert (S2 : sorted Qle_bool (isort Qle_bool m)) by (apply isort_sorted; auto).
  assert (L1 : i < List.length (isort Qle_bool l)) by (rewrite isort_length; auto).
  assert (L2 : i < List.length (isort Qle_bool m)) by (rewrite isort_length, <- (Permutation_length P); auto).
  assert (CE : forall q, count_le q (isort Qle_bool l) = count_le q (isort Qle_bool m)).
  { intros q. apply count_le_perm. rewrite !isort_perm. auto. }
  apply Qle_antisym.
  - apply nth_le; auto. rewrite CE. apply nth_le; auto. apply Qle_refl.
  - apply nth_le; auto. rewrite <- CE. apply nth_le; auto. apply Qle_refl.
Qed.
Lemma qmedian_perm l m : Permutation l m -> qeq (qmedian l) (qmedian m).
Proof.
  intros P. pose proof (Permutation_length P) as L. unfold qmedian.
  pose proof (isort_length Qle_bool l) as L1. pose proof (isort_length Qle_bool m) as L2.
  destruct (isort Qle_bool l) as [|x a] eqn:E1; destruct (isort Qle_bool m) as [|y b] eqn:E2; simpl in L1, L2; try (exfalso; lia); [exact I|].
  assert (LL : List.length (x :: a) = List.length (y :: b)) by (simpl; lia).
  cbv zeta. rewrite LL. cbn [qeq].
  assert (N : forall i, i < List.length (y :: b) -> Qeq (nth i (x :: a) 0%Q) (nth i (y :: b) 0%Q)).
  { intros i Hi. rewrite <- E1, <- E2. apply isort_nth_perm; auto. simpl in *. lia. }
  assert (D : forall n, Nat.div2 n <= n) by (intros; apply Nat.div2_decr; lia).
  rewrite (N (Nat.div2 (List.length (y :: b) - 1))) by (simpl List.length; eapply Nat.le_lt_trans; [apply D|lia]).
  rewrite (N (Nat.div2 (List.length (y :: b)))); [reflexivity|].
  simpl List.length. apply Nat.lt_div2. lia.
Qed.

Lemma qeq_refl x : qeq x x. Proof. destruct x; simpl; auto. reflexivity. Qed.

(** ** One aggregate over the rows of a group *)
(** When the functional key is the key of the measure's view nothing can be repeated; otherwise the warehouse must
    support the symmetric form, and the group must contain a value (the symmetric sum of no value is 0, not NULL). *)
Definition grain_ok (w : warehouse) (pk : string -> option string) (base : string) (js : list join) (hash : sym -> string -> Z)
    (m : string) (t : mtype) (pkc : bool) (own : own_table) : Prop :=
  t <> TSumDistinct /\ t <> TAverageDistinct /\
  (functional_pk base js = Some m \/
   symmetric_supported w = true /\ fpk_of pk base js <> FNone /\ t <> TMedian /\ own_vals own <> [] /\
   (forall d, no_collision hash d own) /\ whole_micros own /\
   (t = TCount -> pkc = true -> forall k q k' q', In (k, Some q) own -> In (k', Some q') own -> Qeq q q' -> k = k')).

Lemma occ_subset m p rows : forall x, In x (occ m (filter p rows)) -> In x (occ m rows).
Proof. intros x X. unfold occ in *. apply in_flat_map in X. destruct X as [c [C X]]. apply filter_In in C. apply in_flat_map. exists c. tauto. Qed.

Lemma aggregate_exact g base js final tab on kind pk m t w sql pksql dk pkc a key val p hash :
  joins_from g [base] js final -> (forall v, NoDup (tab v)) ->
  (forall j, In j js -> agrees tab on (jrel j) j) -> chained [base] js ->
  (forall v, has_char "."%char v = false \/ pk v = None) ->
  aggregate t w sql pksql dk pkc (pk_id pk m) (fpk_of pk base js) = Ok a ->
  (forall r, In r (tab m) -> key r <> None) -> unique_key key (tab m) ->
  let rows := filter p (joined tab on kind base js) in
  let own := own_of m key val rows in
  grain_ok w pk base js hash m t pkc own ->
  qeq (eval_agg hash a (map (see m key val) rows)) (own_value t own).
Proof.
  intros JF TND AG CH ND A KN U rows own [T1 [T2 G]].
  assert (W : forall x, In x (occ m rows) -> In x (tab m)).
  { intros x X. destruct (chain_grain tab on kind TND g js [base] (base_rows tab base) final [] JF) as [WI _].
    - apply base_within.
    - auto.
    - intros z [].
    - intros z [].
    - apply occ_subset in X. eapply occ_within in X; [|exact WI]. tauto. }
  pose proof (see_fan_out m key val rows (tab m) W KN U) as FO. fold own in FO.
  assert (ONCE : functional_pk base js = Some m -> Permutation (somes a_val (map (see m key val) rows)) (own_vals own)).
  { intros F. apply fan_out_once; auto. rewrite see_keys. apply unique_somes with (T := tab m); auto.
    apply occ_filter_NoDup. eapply C15_functional_key_unique_partial; eauto. }
  assert (PLAIN : duplicate_free a = false -> t <> TMedian -> Permutation (somes a_val (map (see m key val) rows)) (own_vals own)).
  { intros DF TM. destruct G as [F|[SW [FN _]]]; [apply ONCE; exact F|].
    assert (AF : affected t = true). { destruct t; simpl in A; try congruence; inversion A; subst; simpl in *; congruence. }
    pose proof (C17_choice t w sql pksql dk pkc (pk_id pk m) (fpk_of pk base js) AF SW) as C. rewrite A, DF in C.
    destruct C as [C|[id [C1 C2]]]; [congruence|]. apply ONCE.
    unfold fpk_of in C2. destruct (functional_pk base js) as [v|] eqn:F; [|discriminate].
    destruct (pk_id pk v) as [id'|] eqn:I'; [|discriminate]. injection C2 as ->.
    unfold pk_id in C1, I'. destruct (pk m) as [k1|] eqn:P1; [|discriminate]. destruct (pk v) as [k2|] eqn:P2; [|discriminate].
    f_equal. symmetry. apply pk_id_inj with (k := k1) (k' := k2); try congruence.
    - destruct (ND m); [auto|congruence].
    - destruct (ND v); [auto|congruence]. }
  (** the functional key is the view's own: the symmetric form is not chosen *)
  assert (OWN : functional_pk base js = Some m -> forall b, protected w (pk_id pk m) (fpk_of pk base js) = Ok b -> b = false).
  { intros F b P. unfold protected, fpk_of in P. rewrite F in P. destruct (symmetric_supported w); [|congruence].
    destruct (pk_id pk m) as [id|]; simpl in P; [|congruence]. rewrite String.eqb_refl in P. simpl in P. congruence. }
  assert (SO : functional_pk base js = Some m \/ exists d, sym_of w = Some d).
  { destruct G as [F|[SW _]]; auto. right. destruct w; simpl in *; try discriminate; eauto. }
  destruct t; simpl in A; try congruence.
  - apply bind_ok in A. destruct A as [b [B A]]. destruct b.
    + destruct G as [F|[SW [FN [TM [NV [NC [WM _]]]]]]]; [exfalso; specialize (OWN F true B); discriminate|].
      destruct (sym_of w) as [d|] eqn:Sy; [|discriminate]. inversion A; subst.
      pose proof (symmetric_sum hash d sql pksql own _ FO (NC d) WM) as H.
      destruct (eval_agg hash (sum_symmetric d sql pksql) (map (see m key val) rows)) as [x|]; simpl in H; [|destruct H].
      unfold own_value. destruct (own_vals own); [congruence|]. exact H.
    + inversion A; subst. specialize (PLAIN eq_refl ltac:(discriminate)). unfold own_value. cbn [eval_agg].
      pose proof (qsum_perm _ _ PLAIN) as Q. pose proof (Permutation_length PLAIN) as L.
      destruct (somes a_val (map (see m key val) rows)) as [|x l]; destruct (own_vals own) as [|y l']; try discriminate L; [exact I|exact Q].
  - apply bind_ok in A. destruct A as [b [B A]]. destruct b.
    + destruct G as [F|[SW [FN [TM [NV [NC [WM PC]]]]]]]; [exfalso; specialize (OWN F true B); discriminate|].
      destruct pkc.
      * inversion A; subst. apply (C17_primary_key_count hash w sql pksql dk (pk_id pk m) (fpk_of pk base js)); auto;
          [cbn [aggregate]; rewrite B; reflexivity | exact (PC eq_refl eq_refl)].
      * inversion A; subst. rewrite (symmetric_count hash sql pksql own _ FO). unfold own_value. destruct (own_vals own); [congruence|apply qeq_refl].
    + inversion A; subst. specialize (PLAIN eq_refl ltac:(discriminate)). unfold own_value. cbn [eval_agg qeq].
      rewrite (qlen_eq _ (own_vals own)); [reflexivity|]. apply Permutation_length; auto.
  - inversion A; subst. simpl. rewrite (qdistinct_set _ (own_vals own)); [reflexivity|]. apply fan_out_vals; auto.
  - apply bind_ok in A. destruct A as [b [B A]]. destruct b.
    + destruct G as [F|[SW [FN [TM [NV [NC [WM _]]]]]]]; [exfalso; specialize (OWN F true B); discriminate|].
      destruct (sym_of w) as [d|] eqn:Sy; [|discriminate]. inversion A; subst. apply symmetric_average; auto.
    + inversion A; subst. specialize (PLAIN eq_refl ltac:(discriminate)). unfold own_value. cbn [eval_agg].
      pose proof (qsum_perm _ _ PLAIN) as Q. pose proof (Permutation_length PLAIN) as L.
      destruct (somes a_val (map (see m key val) rows)) as [|x l]; destruct (own_vals own) as [|y l']; try discriminate L;
        [exact I|]. cbn [qeq]. rewrite (qlen_eq _ _ L), Q. reflexivity.
  - destruct (median_refused w); [discriminate|]. inversion A; subst. destruct G as [F|[_ [_ [TM _]]]]; [|congruence].
    cbn [eval_agg]. apply qmedian_perm. apply ONCE. exact F.
  - inversion A; subst. apply qmax_set. apply fan_out_vals; auto.
  - inversion A; subst. apply qmin_set. apply fan_out_vals; auto.
Qed.

(** ** Filter trees *)
Section Filters.
  Context {A L : Type}.
  Lemma leaf_compared (comparisons : L -> res (list A)) l f c :
    group_sql_query comparisons f = Ok c -> leaf_of l f -> exists cs, comparisons l = Ok cs.
  Proof.
    intros E H. revert c E. induction H as [|op conds f IN H IH]; intros c E.
    - cbn [group_sql_query criterion] in E. unfold criterion in E. apply bind_ok in E. destruct E as [cs [E _]]. eauto.
    - rewrite group_sql_group in E. apply bind_ok in E. destruct E as [cs [E _]].
      destruct (mapM_ok_each _ _ _ E f IN) as [y Y]. eauto.
  Qed.
  Lemma meaning_lit (lv : L -> tv) (x y : list (tok A) -> tv) (f : ftree A L) : ~ has_lit f -> meaning lv x f = meaning lv y f.
  Proof.
    induction f as [l|ts|op conds IH] using ftree_ind'; intros N; [reflexivity|exfalso; apply N; constructor|].
    cbn [meaning]. replace (map (meaning lv x) conds) with (map (meaning lv y) conds); [reflexivity|].
    apply map_ext_in. intros f F. rewrite Forall_forall in IH. symmetry. apply IH; auto. intros H. apply N. econstructor; eauto.
  Qed.
  Lemma meaning_leaves (lv lv' : L -> tv) (x : list (tok A) -> tv) (f : ftree A L) :
    (forall l, leaf_of l f -> lv l = lv' l) -> meaning lv x f = meaning lv' x f.
  Proof.
    induction f as [l|ts|op conds IH] using ftree_ind'; intros H; [apply H; constructor|reflexivity|].
    cbn [meaning]. replace (map (meaning lv x) conds) with (map (meaning lv' x) conds); [reflexivity|].
    apply map_ext_in. intros f F. rewrite Forall_forall in IH. symmetry. apply IH; auto. intros l Hl. apply H. econstructor; eauto.
  Qed.

  (** The clause reads as the conjunction of the trees; only the leaves that occur matter *)
  Lemma clause_reads (leaf_ok : L -> res unit) (comparisons : L -> res (list A)) (val : A -> tv) (leaf_value : L -> tv)
      (lits : option (list (tok A))) (lv : tv) fs out :
    match lits with Some ts => sql_and val ts lv | None => True end ->
    (forall f l cs, In f fs -> leaf_of l f -> comparisons l = Ok cs -> cs <> [] /\ leaf_value l = all3 (map val cs)) ->
    (forall f, In f fs -> ~ has_lit f) ->
    where_sql leaf_ok comparisons lits (ListWhere fs) = Ok out ->
    match out with
    | None => lits = None /\ fs = []
    | Some ts => forall x, sql_or val ts x <->
        x = all3 ((match lits with Some _ => [lv] | None => [] end) ++ map (meaning leaf_value (fun _ => None)) fs)
    end.
  Proof.
    intros LI LS NL E.
    assert (PC : forall f, In f fs -> validate leaf_ok f = Ok tt /\ exists c, group_sql_query comparisons f = Ok c).
    { intros f F. pose proof E as E'. unfold where_sql in E'. apply bind_ok in E'. destruct E' as [cs [M _]].
      destruct (mapM_ok_each _ _ _ M f) as [c H]. { apply in_or_app. right. exact F. }
      unfold filter_sql in H. apply bind_ok in H. destruct H as [[] [V H]]. split; auto.
      destruct f as [l|ts|op conds]; [eauto| |eauto]. exfalso. apply (NL _ F). constructor. }
    assert (DEC : exists leaf_ok' : L -> res unit,
      (forall l, leaf_ok' l = Ok tt -> exists cs, comparisons l = Ok cs /\ cs <> [] /\ leaf_value l = all3 (map val cs)) /\
      (forall f l, In f fs -> leaf_of l f -> leaf_ok' l = Ok tt)).
    { assert (TVD : forall a b : tv, {a = b} + {a <> b}) by (repeat decide equality).
      exists (fun l => match comparisons l with
                       | Ok (c :: cs) => if TVD (leaf_value l) (all3 (map val (c :: cs))) then Ok tt else Err QueryError
                       | _ => Err QueryError end).
      split.
      - intros l H. destruct (comparisons l) as [[|c cs]|e]; try discriminate. destruct (TVD _ _) as [T|T]; [|discriminate].
        exists (c :: cs). split; auto. split; [discriminate|auto].
      - intros f l F Hl. destruct (PC f F) as [_ [c0 G]]. destruct (leaf_compared _ _ _ _ G Hl) as [cs Ecs]. destruct (LS f l cs F Hl Ecs) as [N V].
        rewrite Ecs. destruct cs as [|c cs]; [congruence|]. destruct (TVD _ _); [auto|congruence]. }
    destruct DEC as [leaf_ok' [SND NICE]].
    assert (VAL : forall f, In f fs -> validate leaf_ok' f = Ok tt).
    { intros f F. destruct (PC f F) as [V _]. apply (C21_operators _ _ leaf_ok' f); [intros l Hl; eapply NICE; eauto|].
      intros B. exact (validate_bad leaf_ok f B V). }
    assert (SAME : where_sql leaf_ok' comparisons lits (ListWhere fs) = Ok out).
    { rewrite <- E. unfold where_sql. f_equal. unfold parse_filter_object.
      assert (EXT : forall l (h k : ftree A L -> res (pcrit A)), (forall x, In x l -> h x = k x) -> mapM h l = mapM k l).
      { induction l as [|x l IH]; intros h k H; [reflexivity|]. cbn [mapM]. rewrite (H x) by (left; auto). rewrite (IH h k); auto. intros; apply H; right; auto. }
      apply EXT. intros x X. apply in_app_or in X. destruct X as [X|X].
      - destruct lits as [ts|]; [|destruct X]. destruct X as [<-|[]]. reflexivity.
      - unfold filter_sql. rewrite (VAL x X). destruct (PC x X) as [-> _]. reflexivity. }
    destruct (parse_filter_object lits (ListWhere fs)) as [|f0 fl] eqn:PF.
    - unfold parse_filter_object in PF. destruct lits; [discriminate|]. simpl in PF. subst fs. cbn in SAME. injection SAME as <-. auto.
    - destruct (C21_with_literals A L leaf_ok' comparisons val leaf_value (fun _ => lv) SND lits (ListWhere fs)) as [ts [E2 R]].
      + rewrite PF. discriminate.
      + intros f F. unfold parse_filter_object in F. apply in_app_or in F. destruct F as [F|F].
        * destruct lits as [ts|]; [|destruct F]. destruct F as [<-|[]]. split; [reflexivity|exact LI].
        * split; [auto|]. destruct f; auto. exfalso. apply (NL _ F). constructor.
      + rewrite SAME in E2. injection E2 as ->. intros x. rewrite R. unfold parse_filter_object. rewrite map_app.
        replace (map (meaning leaf_value (fun _ : list (tok A) => lv)) fs) with (map (meaning leaf_value (fun _ : list (tok A) => None)) fs).
        * destruct lits; reflexivity.
        * apply map_ext_in. intros f F. apply meaning_lit. auto.
  Qed.
End Filters.

(** ** The generated query *)
Section Query.
  Context {V C : Type}.
  Variable get_field : string -> res qfield.
  Variable w : warehouse.
  Variable pk : string -> option string.
  Variable fuel : nat.

  Lemma required_mentions : forall n f vs, required_views get_field n f = Ok vs ->
    forall nm, get_field nm = Ok f -> forall v, In v vs <-> mentions get_field nm v.
  Proof.
    induction n as [|n IH]; intros f vs E nm G v; [discriminate|]. cbn [required_views] in E. apply bind_ok in E. destruct E as [us [U E]]. injection E as <-.
    split.
    - intros [<-|I]; [econstructor; eauto|]. apply (concatM_ok_In _ _ _ U) in I. destruct I as [r [zs [R [Z I]]]].
      apply bind_ok in Z. destruct Z as [h [H Z]]. eapply mentions_ref; eauto. eapply IH; eauto.
    - intros M. inversion M as [n0 f0 G0|n0 f0 r v0 G0 R M']; subst; assert (f0 = f) by congruence; subst f0; [left; reflexivity|].
      right. apply (concatM_ok_In _ _ _ U).
      assert (X : exists zs, (h <- get_field r ;; required_views get_field n h) = Ok zs).
      { destruct (concatM_ok_all _ _ _ U r R) as [zs Z]. eauto. }
      destruct X as [zs Z]. exists r, zs. split; auto. split; auto.
      apply bind_ok in Z. destruct Z as [h [H Z]]. eapply IH; eauto.
  Qed.

  Lemma and_tokens_reads (val : sexp * C -> tv) l : l <> [] -> sql_and val (and_tokens l) (all3 (map val l)).
  Proof.
    induction l as [|a [|b l] IH]; intros N; [congruence| |].
    - cbn. rewrite and3_true_r. apply and_one, prim_atom.
    - change (sql_and val ([TAtom a] ++ TAnd :: and_tokens (b :: l)) (and3 (val a) (all3 (map val (b :: l))))).
      apply and_more; [apply prim_atom|]. apply IH. discriminate.
  Qed.
  Lemma leaf_of_fields (l : string * V) (t : ftree (sexp * C) (string * V)) : leaf_of l t -> In (fst l) (tree_fields t).
  Proof. induction 1; cbn [tree_fields]; [left; reflexivity|]. apply in_flat_map. eauto. Qed.

  Section Data.
    Variable tab : string -> list nat.
    Variable on : join -> nat -> nat -> bool.
    Variable dim : string -> crow -> option string.
    Variable key : string -> nat -> option string.
    Variable num : string -> nat -> option Q.
    Variable arith : string -> list (option Q) -> option Q.
    Variable hash : sym -> string -> Z.
    Hypothesis arith_ext : forall id xs ys, Forall2 qeq xs ys -> qeq (arith id xs) (arith id ys).

    (** the aggregates a measure is made of *)
    Inductive made_of : string -> qfield -> mtype -> bool -> Prop :=
    | made_agg n f t b : get_field n = Ok f -> qf_body f = BAgg t b -> made_of n f t b
    | made_num n f r h t b : get_field n = Ok f -> qf_body f = BNum -> In r (qf_refs f) -> made_of r h t b -> made_of n h t b.
    (** a measure: an aggregate, or made of measures *)
    Inductive is_metric : string -> Prop :=
    | metric_agg n f t b : get_field n = Ok f -> qf_body f = BAgg t b -> is_metric n
    | metric_num n f : get_field n = Ok f -> qf_body f = BNum -> (forall r, In r (qf_refs f) -> is_metric r) -> is_metric n.

    Variables (base : string) (js : list join) (g : graph) (final : list string) (p : crow -> bool).
    Hypothesis JF : joins_from g [base] js final.
    Hypothesis TND : forall v, NoDup (tab v).
    Hypothesis AG : forall j, In j js -> agrees tab on (jrel j) j.
    Hypothesis CH : chained [base] js.
    Hypothesis DOT : forall v, has_char "."%char v = false \/ pk v = None.
    Hypothesis KN : forall v r, In r (tab v) -> key v r <> None.
    Hypothesis KU : forall v, unique_key (key v) (tab v).
    Let rows := filter p (joined tab on kind_of base js).

    Lemma metric_exact : forall fl n f e, get_field n = Ok f -> is_metric n ->
      sql_query get_field w pk fl (fpk_of pk base js) f = Ok e ->
      (forall h t b, made_of n h t b -> grain_ok w pk base js hash (qf_view h) t b (own_of (qf_view h) (key (qf_view h)) (num (qf_id h)) rows)) ->
      qeq (value key num arith hash e rows) (measure key num arith get_field fl rows n) /\ (forall id, e <> EDim id).
    Proof.
      assert (AGG : forall fl n f e t b, get_field n = Ok f -> qf_body f = BAgg t b ->
        sql_query get_field w pk fl (fpk_of pk base js) f = Ok e ->
        (forall h t b, made_of n h t b -> grain_ok w pk base js hash (qf_view h) t b (own_of (qf_view h) (key (qf_view h)) (num (qf_id h)) rows)) ->
        qeq (value key num arith hash e rows) (measure key num arith get_field fl rows n) /\ (forall id, e <> EDim id)).
      { intros fl n f e t b G B E GR.
        assert (E' : exists a, aggregate t w (qf_sql f) (qf_pk_sql f) (qf_dk_sql f) b (pk_id pk (qf_view f)) (fpk_of pk base js) = Ok a /\ e = EAgg (qf_view f) (qf_id f) a).
        { destruct fl; cbn [sql_query] in E; rewrite B in E; apply bind_ok in E; destruct E as [a [A E]]; injection E as <-; eauto. }
        destruct E' as [a [A ->]]. split; [|discriminate].
        assert (ME : measure key num arith get_field fl rows n = own_value t (own_of (qf_view f) (key (qf_view f)) (num (qf_id f)) rows)).
        { destruct fl; cbn [measure]; rewrite G, B; reflexivity. }
        rewrite ME. cbn [value]. unfold rows in *. eapply aggregate_exact; eauto. apply GR. econstructor; eauto. }
      induction fl as [|fl IH]; intros n f e G M E GR; destruct M as [n f0 t b G0 B|n f0 G0 B RS]; assert (f0 = f) by congruence; subst f0.
      - eapply AGG; eauto.
      - cbn [sql_query] in E. rewrite B in E. discriminate.
      - eapply AGG; eauto.
      - cbn [sql_query] in E. rewrite B in E. apply bind_ok in E. destruct E as [args [MA E]]. injection E as <-. split; [|discriminate].
        cbn [measure value]. rewrite G, B. apply arith_ext. apply mapM_ok in MA.
        assert (GR' : forall r, In r (qf_refs f) -> forall h t b, made_of r h t b -> grain_ok w pk base js hash (qf_view h) t b (own_of (qf_view h) (key (qf_view h)) (num (qf_id h)) rows)).
        { intros r R h t b MO. apply GR. eapply made_num; eauto. }
        clear GR G B. induction MA as [|r x rs xs X MA IHl]; [constructor|]. cbn [map]. constructor.
        + apply bind_ok in X. destruct X as [h [H X]]. eapply IH; eauto; [apply RS; left; auto|]. apply GR'. left; auto.
        + apply IHl; intros; [apply RS; right; auto|]. eapply GR'; eauto. right; auto.
    Qed.
  End Data.
End Query.
