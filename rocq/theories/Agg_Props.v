(** C16 (symmetric aggregates undo fan-out) and C17 (they are chosen when needed). *)
From Coq Require Import QArith Qround Permutation Lia.
From Verif Require Import PyBase PyStr JoinGraph_Model JoinGraph_Spec JoinGraph_Props JoinOrder_Model JoinOrder_Spec JoinOrder_Nx JoinOrder_Props
  Rel_Model Rel_Spec Rel_Proofs Rel_Props PySort Agg_Model Agg_Spec Agg_Proofs.
Local Open Scope string_scope.
Local Open Scope list_scope.
Local Open Scope nat_scope.

(** C16: the sum over any fan-out is the sum over the own rows, for any hash without collisions. *)
Theorem C16_symmetric_sum hash d sql key own rows :
  fan_out own rows -> no_collision hash d own -> whole_micros own ->
  qeq (eval_agg hash (sum_symmetric d sql key) rows) (Some (qsum (own_vals own))).
Proof. apply symmetric_sum. Qed.
Print Assumptions C16_symmetric_sum.

(** C16: for arbitrary values the result is the sum of the values cut to millionths: never above the
    true sum, and below it by less than one millionth per value. *)
Lemma micros_bounds v : let q := match v with Some q => q | None => 0%Q end in
  Qle (inject_Z (micros v)) (Qmult q (inject_Z million)) /\ Qle (Qmult q (inject_Z million)) (inject_Z (micros v + match v with Some _ => 1 | None => 0 end)).
Proof.
  destruct v as [q|]; cbv zeta; unfold micros.
  - split; [apply Qfloor_le|]. apply Qlt_le_weak. apply Qlt_floor.
  - split; discriminate.
Qed.
Lemma micros_sum_bounds own :
  Qle (inject_Z (zsum (map (fun x => micros (snd x)) own))) (Qmult (qsum (own_vals own)) (inject_Z million)) /\
  Qle (Qmult (qsum (own_vals own)) (inject_Z million)) (Qplus (inject_Z (zsum (map (fun x => micros (snd x)) own))) (qlen (own_vals own))).
Proof.
  induction own as [|[k v] own IH]; [split; discriminate|].
  pose proof (micros_bounds v) as [A B]. destruct IH as [IH1 IH2].
  assert (Z : zsum (map (fun x : string * option Q => micros (snd x)) ((k, v) :: own)) = (micros v + zsum (map (fun x => micros (snd x)) own))%Z) by reflexivity.
  rewrite Z, inject_Z_plus.
  assert (S : Qeq (qsum (own_vals ((k, v) :: own))) (Qplus (match v with Some q => q | None => 0%Q end) (qsum (own_vals own)))).
  { unfold own_vals, somes, qsum. simpl. destruct v; simpl; [reflexivity|]. rewrite Qplus_0_l. reflexivity. }
  assert (L : Qeq (qlen (own_vals ((k, v) :: own))) (Qplus (inject_Z (match v with Some _ => 1 | None => 0 end)) (qlen (own_vals own)))).
  { unfold qlen. rewrite <- inject_Z_plus. replace (Z.of_nat (List.length (own_vals ((k, v) :: own))))
      with (match v with Some _ => 1 | None => 0 end + Z.of_nat (List.length (own_vals own)))%Z; [reflexivity|].
    unfold own_vals, somes. destruct v; simpl List.length; simpl flat_map; simpl List.length; lia. }
  rewrite S, L, Qmult_plus_distr_l. split.
  - apply Qplus_le_compat; auto.
  - rewrite inject_Z_plus in B.
    setoid_replace (inject_Z (micros v) + inject_Z (zsum (map (fun x : string * option Q => micros (snd x)) own)) +
      (inject_Z match v with Some _ => 1 | None => 0 end + qlen (own_vals own)))%Q
      with ((inject_Z (micros v) + inject_Z match v with Some _ => 1 | None => 0 end) +
            (inject_Z (zsum (map (fun x : string * option Q => micros (snd x)) own)) + qlen (own_vals own)))%Q by ring.
    apply Qplus_le_compat; auto.
Qed.
Theorem C16_symmetric_sum_precision hash d sql key own rows :
  fan_out own rows -> no_collision hash d own ->
  exists x, eval_agg hash (sum_symmetric d sql key) rows = Some x /\
    Qle x (qsum (own_vals own)) /\ Qle (qsum (own_vals own)) (Qplus x (Qdiv (qlen (own_vals own)) (inject_Z million))).
Proof.
  intros FO NC. pose proof (symmetric_sum_micros hash d sql key own rows FO NC) as H.
  destruct (eval_agg hash (sum_symmetric d sql key) rows) as [x|]; simpl in H; [|destruct H].
  exists x. split; auto. destruct (micros_sum_bounds own) as [A B]. rewrite H.
  assert (M : Qlt 0 (inject_Z million)) by reflexivity. split.
  - apply Qle_shift_div_r; auto.
  - setoid_replace (inject_Z (zsum (map (fun x0 : string * option Q => micros (snd x0)) own)) / inject_Z million + qlen (own_vals own) / inject_Z million)%Q
      with ((inject_Z (zsum (map (fun x0 : string * option Q => micros (snd x0)) own)) + qlen (own_vals own)) / inject_Z million)%Q
      by (field; discriminate).
    apply Qle_shift_div_l; auto.
Qed.
Print Assumptions C16_symmetric_sum_precision.

(** C16: the count is the number of own rows with a value, or NULL instead of 0; no hash involved. *)
Theorem C16_symmetric_count hash sql key own rows : fan_out own rows ->
  eval_agg hash (count_symmetric sql key) rows = match own_vals own with [] => None | l => Some (qlen l) end.
Proof. apply symmetric_count. Qed.
Print Assumptions C16_symmetric_count.

Theorem C16_symmetric_average hash d sql key own rows :
  fan_out own rows -> no_collision hash d own -> whole_micros own ->
  qeq (eval_agg hash (average_symmetric d sql key) rows) (own_value TAverage own).
Proof. apply symmetric_average. Qed.
Print Assumptions C16_symmetric_average.

(** C16: the declared distinct types give the same over their declared key, or refuse. *)
Theorem C16_distinct_types hash w t sql pk dk pkc own_id f own rows a :
  t = TSumDistinct \/ t = TAverageDistinct ->
  aggregate t w sql pk dk pkc own_id f = Ok a ->
  fan_out own rows -> (forall d, no_collision hash d own) -> whole_micros own ->
  symmetric_supported w = true /\
  (if match t with TSumDistinct => true | _ => false end then same_or_zero else qeq) (eval_agg hash a rows) (own_value t own).
Proof.
  intros T E FO NC W. destruct T as [-> | ->]; simpl in E; destruct (sym_of w) as [d|] eqn:S; try discriminate; inversion E; subst; clear E.
  - split; [destruct w; simpl in *; congruence|]. pose proof (symmetric_sum hash d sql dk own rows FO (NC d) W) as H.
    destruct (eval_agg hash (sum_symmetric d sql dk) rows) as [x|]; simpl in H; [|destruct H].
    unfold same_or_zero, own_value. rewrite H. destruct (own_vals own); reflexivity.
  - split; [destruct w; simpl in *; congruence|]. apply symmetric_average; auto.
Qed.
Print Assumptions C16_distinct_types.

(** C16: the result depends only on which rows are present, not on how often, whatever the hash. *)
Fixpoint duplicate_free (a : ax) : bool :=
  match a with
  | ASum _ | ACount _ | AAvg _ | AMedian _ => false
  | AMax _ | AMin _ | ACountDistinctVal _ | ACountDistinctKey _ | ASumDistinct _ => true
  | ASub a b | ADiv a b => duplicate_free a && duplicate_free b
  | ABackOut _ a | ANullIfZero a => duplicate_free a
  end.
Lemma somes_set {A B} (f : A -> option B) l m : (forall x, In x l <-> In x m) -> forall y, In y (somes f l) <-> In y (somes f m).
Proof. intros S y. rewrite !somes_In. split; intros [x [I E]]; exists x; split; auto; apply S; auto. Qed.
Lemma nodup_set {A} (dec : forall a b : A, {a = b} + {a <> b}) l m : (forall x, In x l <-> In x m) -> Permutation (nodup dec l) (nodup dec m).
Proof. intros S. apply NoDup_Permutation; try apply NoDup_nodup. intros x. rewrite !nodup_In. auto. Qed.
Theorem C16_fan_out_invariant hash a rows rows' :
  duplicate_free a = true -> (forall r, In r rows <-> In r rows') -> qeq (eval_agg hash a rows) (eval_agg hash a rows').
Proof.
  intros D S. induction a; simpl in D; try discriminate.
  - apply qmax_set, somes_set; auto.
  - apply qmin_set, somes_set; auto.
  - simpl. rewrite (qdistinct_set (somes a_val rows) (somes a_val rows')); [reflexivity|]. apply somes_set; auto.
  - cbn [eval_agg qeq]. rewrite (qlen_eq _ (nodup string_dec (somes (eval_key k) rows'))); [reflexivity|].
    apply Permutation_length, nodup_set, somes_set; auto.
  - cbn [eval_agg]. pose proof (nodup_set Z.eq_dec _ _ (somes_set (eval_num hash n) rows rows' S)) as P.
    destruct (nodup Z.eq_dec (somes (eval_num hash n) rows)) eqn:E1; destruct (nodup Z.eq_dec (somes (eval_num hash n) rows')) eqn:E2.
    + exact I.
    + apply Permutation_nil in P. discriminate.
    + apply Permutation_sym, Permutation_nil in P. discriminate.
    + cbn [qeq]. rewrite (zsum_perm _ _ P). reflexivity.
  - apply andb_true_iff in D. destruct D as [D1 D2]. specialize (IHa1 D1). specialize (IHa2 D2). simpl.
    destruct (eval_agg hash a1 rows), (eval_agg hash a1 rows'), (eval_agg hash a2 rows), (eval_agg hash a2 rows'); simpl in *; auto; try tauto.
    rewrite IHa1, IHa2. reflexivity.
  - specialize (IHa D). simpl. destruct (eval_agg hash a rows), (eval_agg hash a rows'); simpl in *; auto; try tauto; try reflexivity.
    rewrite IHa. reflexivity.
  - specialize (IHa D). simpl. destruct (eval_agg hash a rows), (eval_agg hash a rows'); simpl in *; auto; try tauto.
    rewrite IHa. destruct (Qeq_bool q0 0); simpl; auto.
  - apply andb_true_iff in D. destruct D as [D1 D2]. specialize (IHa1 D1). specialize (IHa2 D2). simpl.
    destruct (eval_agg hash a1 rows), (eval_agg hash a1 rows'), (eval_agg hash a2 rows), (eval_agg hash a2 rows'); simpl in *; auto; try tauto.
    rewrite IHa2. destruct (Qeq_bool q2 0); simpl; auto. rewrite IHa1, IHa2. reflexivity.
Qed.
Print Assumptions C16_fan_out_invariant.

(** The rendered text, as in tests/test_symmetric... : one literal per dialect. *)
(** The text of an aggregate in a warehouse, for any SQL of the measure and of the key *)
Definition hash_text (w : warehouse) (k : string) : option string :=
  match w with
  | Snowflake => Some ("(TO_NUMBER(MD5(" ++ k ++ "), 'XXXXXXXXXXXXXXXXXXXXXXXXXXXXXXXX') % 1.0e27)::NUMERIC(38, 0)")%string
  | Redshift => Some ("(FARMFINGERPRINT64(" ++ k ++ "))::NUMERIC(38, 0)")%string
  | Postgres | DuckDb => Some ("(HASHTEXTEXTENDED(" ++ k ++ ", 0))::NUMERIC(38, 0)")%string
  | BigQuery => Some ("CAST(FARM_FINGERPRINT(CAST(" ++ k ++ " AS STRING)) AS BIGNUMERIC)")%string
  | _ => None
  end.
Definition sum_text (w : warehouse) (s h : string) : string :=
  let float := match w with BigQuery => "FLOAT64" | _ => "DOUBLE PRECISION" end in
  let whole := match w with BigQuery => "FLOAT64" | _ => "DECIMAL(38,0)" end in
  ("COALESCE(CAST((SUM(DISTINCT (CAST(FLOOR(COALESCE(" ++ s ++ ", 0) * (1000000 * 1.0)) AS " ++ whole ++ ")) + " ++ h ++ ") - SUM(DISTINCT " ++ h ++ ")) AS " ++ float ++ ") / CAST((1000000*1.0) AS " ++ float ++ "), 0)")%string.
Definition count_text (s k : string) : string := ("NULLIF(COUNT(DISTINCT CASE WHEN  (" ++ s ++ ")  IS NOT NULL THEN  " ++ k ++ "  ELSE NULL END), 0)")%string.
Definition plain_text (t : mtype) (s : string) : option string :=
  match t with
  | TSum => Some ("SUM(" ++ s ++ ")")%string | TCount => Some ("COUNT(" ++ s ++ ")")%string | TAverage => Some ("AVG(" ++ s ++ ")")%string
  | TMax => Some ("MAX(" ++ s ++ ")")%string | TMin => Some ("MIN(" ++ s ++ ")")%string | TMedian => Some ("MEDIAN(" ++ s ++ ")")%string
  | TCountDistinct => Some ("COUNT(DISTINCT(" ++ s ++ "))")%string | _ => None
  end.
Lemma sapp_assoc (x y z : string) : ((x ++ y) ++ z = x ++ y ++ z)%string.
Proof. induction x as [|c x IH]; cbn; [reflexivity|now rewrite IH]. Qed.
Lemma sum_symmetric_text w d s k h : sym_of w = Some d -> hash_text w k = Some h -> render_agg (sum_symmetric d s k) = sum_text w s h.
Proof. intros D H. destruct w; try discriminate D; injection D as <-; injection H as <-; unfold sum_symmetric, sum_text; cbn [render_agg render_num float_type]; repeat (rewrite !sapp_assoc; cbn [append]); reflexivity. Qed.
Theorem C16_texts t w sql pk dk pkc own f a : aggregate t w sql pk dk pkc own f = Ok a ->
  plain_text t sql = Some (render_agg a) \/
  t = TCount /\ (pkc = true /\ render_agg a = ("COUNT(DISTINCT(" ++ sql ++ "))")%string \/ pkc = false /\ render_agg a = count_text sql pk) \/
  exists k h, In (t, k) [(TSum, pk); (TAverage, pk); (TSumDistinct, dk); (TAverageDistinct, dk)] /\ hash_text w k = Some h /\
    render_agg a = match t with TSum | TSumDistinct => sum_text w sql h | _ => ("(" ++ sum_text w sql h ++ " / " ++ count_text sql k ++ ")")%string end.
Proof.
  intros H.
  assert (S : forall d k, sym_of w = Some d -> exists h, hash_text w k = Some h /\ render_agg (sum_symmetric d sql k) = sum_text w sql h).
  { intros d k D. assert (X : exists h, hash_text w k = Some h) by (destruct w; try discriminate D; cbn [hash_text]; eauto). destruct X as (h & X). exists h. split; [exact X|]. eapply sum_symmetric_text; eauto. }
  destruct t; cbn [aggregate] in H;
    try (destruct (protected w own f) as [[]|]; cbn [bind] in H; [| |discriminate]);
    try (destruct (sym_of w) as [d|]; [|discriminate]);
    try (destruct (median_refused w); [discriminate|]); try discriminate H;
    try (injection H as <-; left; reflexivity).
  - injection H as <-. right. right. destruct (S d pk eq_refl) as (h & A & B). exists pk, h. split; [cbn; tauto|]. auto.
  - injection H as <-. right. right. destruct (S d dk eq_refl) as (h & A & B). exists dk, h. split; [cbn; tauto|]. auto.
  - right. left. split; [reflexivity|]. destruct pkc; injection H as <-; [left|right]; (split; [reflexivity|]); [reflexivity|]. unfold count_text, count_symmetric. cbn [render_agg render_key]. repeat (rewrite !sapp_assoc; cbn [append]); reflexivity.
  - injection H as <-. right. right. destruct (S d pk eq_refl) as (h & A & B). exists pk, h. split; [cbn; tauto|]. split; [exact A|]. unfold average_symmetric. cbn [render_agg]. rewrite B. unfold count_text, count_symmetric. cbn [render_agg render_key]. repeat (rewrite !sapp_assoc; cbn [append]); reflexivity.
  - injection H as <-. right. right. destruct (S d dk eq_refl) as (h & A & B). exists dk, h. split; [cbn; tauto|]. split; [exact A|]. unfold average_symmetric. cbn [render_agg]. rewrite B. unfold count_text, count_symmetric. cbn [render_agg render_key]. repeat (rewrite !sapp_assoc; cbn [append]); reflexivity.
Qed.
Print Assumptions C16_texts.
Example C16_text :
  render_agg (sum_symmetric SymSnowflake "t.x" "t.id") =
    "COALESCE(CAST((SUM(DISTINCT (CAST(FLOOR(COALESCE(t.x, 0) * (1000000 * 1.0)) AS DECIMAL(38,0))) + (TO_NUMBER(MD5(t.id), 'XXXXXXXXXXXXXXXXXXXXXXXXXXXXXXXX') % 1.0e27)::NUMERIC(38, 0)) - SUM(DISTINCT (TO_NUMBER(MD5(t.id), 'XXXXXXXXXXXXXXXXXXXXXXXXXXXXXXXX') % 1.0e27)::NUMERIC(38, 0))) AS DOUBLE PRECISION) / CAST((1000000*1.0) AS DOUBLE PRECISION), 0)" /\
  render_agg (count_symmetric "t.x" "t.id") = "NULLIF(COUNT(DISTINCT CASE WHEN  (t.x)  IS NOT NULL THEN  t.id  ELSE NULL END), 0)".
Proof. split; reflexivity. Qed.

(** A fan-out with a repeated row, an absent view and a NULL value. *)
Definition h0 (d : sym) (k : string) : Z := match k with "a" => 1 | "b" => 2 | _ => 3 end%Z.
Definition own0 : own_table := [("a", Some (5 # 2)); ("b", Some (5 # 2)); ("c", None)]%Q.
Definition rows0 : list arow :=
  [ARow (Some (5 # 2)) (Some "a"); ARow (Some (5 # 2)) (Some "a"); ARow None None; ARow (Some (5 # 2)) (Some "b");
   ARow None (Some "c"); ARow None (Some "c")]%Q.
Example C16_case : fan_out own0 rows0 /\ no_collision h0 SymSnowflake own0 /\ whole_micros own0 /\
  qeq (eval_agg h0 (sum_symmetric SymSnowflake "" "") rows0) (Some (inject_Z 5)) /\
  qeq (eval_agg h0 (ASum "") rows0) (Some (15 # 2)%Q) /\
  eval_agg h0 (count_symmetric "" "") rows0 = Some (inject_Z 2).
Proof.
  assert (FO : fan_out own0 rows0).
  { split; [|split].
    - repeat constructor; simpl; intuition discriminate.
    - intros r R. simpl in R. repeat (destruct R as [<-|R]; [simpl; tauto|]). destruct R.
    - intros k v I. simpl in I. repeat (destruct I as [E|I]; [inversion E; subst; simpl; tauto|]). destruct I. }
  assert (NC : no_collision h0 SymSnowflake own0).
  { split; intros k v k' v' I J; simpl in I, J;
      repeat (destruct I as [E|I]; [inversion E; subst; repeat (destruct J as [E'|J]; [inversion E'; subst; simpl; auto; discriminate|]); destruct J|]); destruct I. }
  assert (W : whole_micros own0).
  { intros k q I. simpl in I. repeat (destruct I as [E|I]; [inversion E; subst; exists 2500000%Z; reflexivity|]). destruct I. }
  split; auto. split; auto. split; auto. split; [|split; reflexivity].
  pose proof (symmetric_sum h0 SymSnowflake "" "" own0 rows0 FO NC W) as H.
  destruct (eval_agg h0 (sum_symmetric SymSnowflake "" "") rows0); simpl in *; auto. rewrite H. reflexivity.
Qed.

(** Findings: an injective hash is not enough, because value + hash may coincide for two keys. *)
Theorem C16_injective_hash_not_enough_refuted : exists hash own rows,
  fan_out own rows /\ whole_micros own /\ (forall d k k', hash d k = hash d k' -> In k ["a"; "b"] -> In k' ["a"; "b"] -> k = k') /\
  ~ qeq (eval_agg hash (sum_symmetric SymSnowflake "" "") rows) (Some (qsum (own_vals own))).
Proof.
  exists (fun _ k => if String.eqb k "a" then 0%Z else 1000000%Z), [("a", Some (inject_Z 2)); ("b", Some (inject_Z 1))],
    [ARow (Some (inject_Z 2)) (Some "a"); ARow (Some (inject_Z 1)) (Some "b")].
  split; [|split; [|split]].
  - split; [|split].
    + repeat constructor; simpl; intuition discriminate.
    + intros r R. simpl in R. repeat (destruct R as [<-|R]; [simpl; tauto|]). destruct R.
    + intros k v I. simpl in I. repeat (destruct I as [E|I]; [inversion E; subst; simpl; tauto|]). destruct I.
  - intros k q I. simpl in I. destruct I as [E|[E|[]]]; inversion E; subst; eexists; unfold Qeq; simpl; rewrite Z.mul_1_r; reflexivity.
  - intros d k k' H [<-|[<-|[]]] [<-|[<-|[]]]; auto; discriminate.
  - intros H. vm_compute in H. discriminate.
Qed.
Print Assumptions C16_injective_hash_not_enough_refuted.

(** A value below one millionth disappears, a fan-out or not. *)
Theorem C16_small_values_lost_refuted : exists hash own rows,
  fan_out own rows /\ no_collision hash SymSnowflake own /\
  qeq (eval_agg hash (sum_symmetric SymSnowflake "" "") rows) (Some 0%Q) /\ ~ qeq (Some (qsum (own_vals own))) (Some 0%Q).
Proof.
  exists h0, [("a", Some (1 # 2000000)%Q)], [ARow (Some (1 # 2000000)%Q) (Some "a")].
  split; [|split; [|split]].
  - split; [|split].
    + repeat constructor; auto.
    + intros r [<-|[]]. simpl. auto.
    + intros k v [E|[]]. inversion E; subst. left; auto.
  - split; intros k v k' v' [E|[]] [E'|[]]; inversion E; inversion E'; subst; auto.
  - vm_compute. reflexivity.
  - intros H. vm_compute in H. discriminate.
Qed.
Print Assumptions C16_small_values_lost_refuted.

(** Over a group without values SUM is NULL but the symmetric sum is 0, COUNT is 0 but the symmetric
    count is NULL. *)
Theorem C16_null_differs_from_plain_refuted hash d : exists rows,
  eval_agg hash (ASum "x") rows = None /\ eval_agg hash (sum_symmetric d "x" "k") rows = Some 0%Q /\
  eval_agg hash (ACount "x") rows = Some (inject_Z 0) /\ eval_agg hash (count_symmetric "x" "k") rows = None.
Proof. exists [ARow None None]. destruct d; repeat split; reflexivity. Qed.
Print Assumptions C16_null_differs_from_plain_refuted.

(** ** C17 *)
Definition affected (t : mtype) : bool := match t with TSum | TCount | TAverage => true | _ => false end.

(** C17: on a warehouse with symmetric aggregates, a measure that fan-out would change is emitted
    plain exactly when its view's key is the functional key (or no functional key is known), raises
    exactly when the view has no key, and is otherwise insensitive to fan-out. *)
Theorem C17_choice t w sql pk dk pkc own f :
  affected t = true -> symmetric_supported w = true ->
  match aggregate t w sql pk dk pkc own f with
  | Ok a => if duplicate_free a then f <> FNone /\ exists id, own = Some id /\ f <> FKey id
            else f = FNone \/ exists id, own = Some id /\ f = FKey id
  | Err e => e = QueryError /\ f <> FNone /\ own = None
  end.
Proof.
  intros T W.
  assert (S : exists d, sym_of w = Some d) by (destruct w; simpl in *; try discriminate; eauto). destruct S as [d S].
  unfold aggregate, protected. rewrite W, S. unfold needs_symmetric.
  destruct f as [| |k]; destruct own as [id|]; destruct t; simpl in *; try discriminate; auto;
    try (destruct pkc; simpl); try (split; [discriminate|]; exists id; split; [auto|discriminate]);
    try (split; [reflexivity|split; [discriminate|reflexivity]]);
    try (destruct (String.eqb id k) eqn:E; simpl;
         [apply String.eqb_eq in E; subst; right; eauto
         |apply String.eqb_neq in E; split; [discriminate|]; exists id; split; [auto|congruence]]).
Qed.
Print Assumptions C17_choice.

(** Identifiers of primary keys of different views differ. *)
Lemma pk_id_inj v k v' k' : has_char "."%char v = false -> has_char "."%char v' = false ->
  (v ++ "." ++ k)%string = (v' ++ "." ++ k')%string -> v = v'.
Proof.
  revert v'. induction v as [|c v IH]; intros [|c' v'] H H' E; auto.
  - simpl in E. inversion E; subst. simpl in H'. discriminate.
  - simpl in E. inversion E; subst. simpl in H. discriminate.
  - simpl in E. injection E as E1 E2. subst c'. simpl in H, H'. apply orb_false_iff in H. apply orb_false_iff in H'.
    f_equal. apply IH; tauto.
Qed.

(** C17, end to end: over every data content that agrees with the declared relationships, for every
    join kind and every selection of joined rows (WHERE and GROUP BY), the emitted aggregate of a
    measure equals the aggregate over the distinct own rows in the selection. *)
Theorem C17_measure_not_fanned_out g base js final tab on kind pk m t w sql pksql dk a key val p hash :
  joins_from g [base] js final -> (forall v, NoDup (tab v)) ->
  (forall j, In j js -> agrees tab on (jrel j) j) -> chained [base] js ->
  (forall v, has_char "."%char v = false \/ pk v = None) ->
  fpk_of pk base js <> FNone -> symmetric_supported w = true ->
  t <> TMedian -> t <> TSumDistinct -> t <> TAverageDistinct ->
  aggregate t w sql pksql dk false (pk_id pk m) (fpk_of pk base js) = Ok a ->
  (forall r, In r (tab m) -> key r <> None) -> unique_key key (tab m) ->
  let rows := filter p (joined tab on kind base js) in
  let own := own_of m key val rows in
  (forall d, no_collision hash d own) -> whole_micros own ->
  same_or_zero (eval_agg hash a (map (see m key val) rows)) (own_value t own).
Proof.
  intros JF TND AG CH ND FN SW T1 T2 T3 A KN U rows own NC WM.
  assert (W : forall x, In x (occ m rows) -> In x (tab m)).
  { intros x X. destruct (chain_grain tab on kind TND g js [base] (base_rows tab base) final [] JF) as [WI _].
    - apply base_within.
    - auto.
    - intros z [].
    - intros z [].
    - assert (X' : In x (occ m (joined tab on kind base js))).
      { unfold occ, rows in *. apply in_flat_map in X. destruct X as [c [C X]]. apply filter_In in C.
        apply in_flat_map. exists c. tauto. }
      eapply occ_within in X'; [|exact WI]. tauto. }
  pose proof (see_fan_out m key val rows (tab m) W KN U) as FO. fold own in FO.
  assert (SO : forall x y, qeq x y -> same_or_zero x y).
  { intros [x|] [y|]; simpl; unfold same_or_zero; try tauto. reflexivity. }
  assert (S : exists d, sym_of w = Some d) by (destruct w; simpl in *; try discriminate; eauto). destruct S as [d S].
  assert (PL : duplicate_free a = false -> Permutation (somes a_val (map (see m key val) rows)) (own_vals own)).
  { intros DF. apply fan_out_once; auto. rewrite see_keys. apply unique_somes with (T := tab m); auto.
    apply occ_filter_NoDup.
    assert (AF : affected t = true). { destruct t; simpl in A; try congruence; try (destruct (median_refused w)); inversion A; subst; simpl in *; congruence. }
    pose proof (C17_choice t w sql pksql dk false (pk_id pk m) (fpk_of pk base js) AF SW) as C. rewrite A, DF in C.
    destruct C as [C|[id [C1 C2]]]; [congruence|].
    unfold fpk_of in C2. destruct (functional_pk base js) as [v|] eqn:F; [|discriminate].
    destruct (pk_id pk v) as [id'|] eqn:I'; [|discriminate]. injection C2 as ->.
    unfold pk_id in C1, I'. destruct (pk m) as [k1|] eqn:P1; [|discriminate]. destruct (pk v) as [k2|] eqn:P2; [|discriminate].
    assert (m = v).
    { apply pk_id_inj with (k := k1) (k' := k2); try congruence.
      - destruct (ND m); [auto|congruence].
      - destruct (ND v); [auto|congruence]. }
    subst v. eapply C15_functional_key_unique_partial; eauto. }
  destruct t; simpl in A; try congruence.
  - unfold protected in A. rewrite SW in A. apply bind_ok in A. destruct A as [b [B A]]. destruct b.
    + rewrite S in A. inversion A; subst. pose proof (symmetric_sum hash d sql pksql own _ FO (NC d) WM) as H.
      destruct (eval_agg hash (sum_symmetric d sql pksql) (map (see m key val) rows)) as [x|]; simpl in H; [|destruct H].
      unfold same_or_zero, own_value. rewrite H. destruct (own_vals own); reflexivity.
    + inversion A; subst. specialize (PL eq_refl). unfold same_or_zero, own_value. cbn [eval_agg].
      pose proof (qsum_perm _ _ PL) as Q.
      destruct (somes a_val (map (see m key val) rows)) as [|x l]; destruct (own_vals own) as [|y l']; auto; reflexivity.
  - unfold protected in A. rewrite SW in A. apply bind_ok in A. destruct A as [b [B A]]. destruct b.
    + inversion A; subst. rewrite (symmetric_count hash sql pksql own _ FO). unfold same_or_zero, own_value.
      destruct (own_vals own); reflexivity.
    + inversion A; subst. specialize (PL eq_refl). apply SO. unfold own_value. cbn [eval_agg qeq].
      rewrite (qlen_eq _ (own_vals own)); [reflexivity|]. apply Permutation_length; auto.
  - inversion A; subst. apply SO. simpl. rewrite (qdistinct_set _ (own_vals own)); [reflexivity|]. apply fan_out_vals; auto.
  - unfold protected in A. rewrite SW in A. apply bind_ok in A. destruct A as [b [B A]]. destruct b.
    + rewrite S in A. inversion A; subst. apply SO. apply symmetric_average; auto.
    + inversion A; subst. specialize (PL eq_refl). unfold own_value. cbn [eval_agg].
      pose proof (qsum_perm _ _ PL) as Q. pose proof (Permutation_length PL) as L.
      destruct (somes a_val (map (see m key val) rows)) as [|x l]; destruct (own_vals own) as [|y l']; try discriminate;
        [reflexivity|]. apply SO. cbn [qeq]. rewrite (qlen_eq _ _ L), Q. reflexivity.
  - inversion A; subst. apply SO. apply qmax_set. apply fan_out_vals; auto.
  - inversion A; subst. apply SO. apply qmin_set. apply fan_out_vals; auto.
Qed.
Print Assumptions C17_measure_not_fanned_out.

(** C17: a count measure flagged as the primary key's count: COUNT(DISTINCT key). *)
Theorem C17_primary_key_count hash w sql pksql dk own_id f own rows a :
  aggregate TCount w sql pksql dk true own_id f = Ok a -> duplicate_free a = true ->
  fan_out own rows ->
  (forall k q k' q', In (k, Some q) own -> In (k', Some q') own -> Qeq q q' -> k = k') ->
  qeq (eval_agg hash a rows) (own_value TCount own).
Proof.
  intros A D FO I. simpl in A. apply bind_ok in A. destruct A as [b [B A]].
  destruct b; inversion A; subst; clear A; simpl in D; try discriminate.
  simpl. rewrite (qdistinct_set _ (own_vals own)) by (apply fan_out_vals; auto).
  unfold qdistinct. rewrite nodup_fixed_point.
  - unfold qlen. rewrite map_length. reflexivity.
  - destruct FO as [ND _]. revert ND I. unfold own_vals, somes.
    induction own as [|[k [q|]] own IH]; simpl; intros ND I; [constructor| |].
    + inversion ND as [|? ? N1 N2]; subst. constructor.
      * intros M. apply in_map_iff in M. destruct M as [q' [E M]]. apply in_flat_map in M. destruct M as [[k' v'] [M1 M2]].
        simpl in M2. destruct v' as [q''|]; [|destruct M2]. destruct M2 as [->|[]].
        assert (k = k').
        { apply (I k q k' q'); auto. rewrite <- (Qred_correct q), <- E, Qred_correct. reflexivity. }
        subst. apply N1. apply in_map_iff. exists (k', Some q'). auto.
      * apply IH; auto. intros; eapply I; eauto.
    + inversion ND as [|? ? N1 N2]; subst. apply IH; auto. intros; eapply I; eauto.
Qed.
Print Assumptions C17_primary_key_count.

(** What is refused: a median where the warehouse has none, a distinct aggregate where there is no symmetric one, an aggregate that
    has to count each row once over a view without a key, and a type that is no aggregate; always as a QueryError *)
Definition symmetric_warehouses : list warehouse := [Snowflake; Redshift; BigQuery; Postgres; DuckDb].
Theorem C17_refused t w sql pk dk pkc own f e : aggregate t w sql pk dk pkc own f = Err e <->
  e = QueryError /\
  (t = TMedian /\ In w [Druid; Postgres; BigQuery; SqlServer; AzureSynapse; Trino] \/
   In t [TSumDistinct; TAverageDistinct] /\ ~ In w symmetric_warehouses \/
   In t [TSum; TCount; TAverage] /\ In w symmetric_warehouses /\ f <> FNone /\ own = None \/
   t = TOther).
Proof.
  assert (W : forall b, symmetric_supported w = b -> if b then In w symmetric_warehouses /\ (exists d, sym_of w = Some d) else ~ In w symmetric_warehouses /\ sym_of w = None).
  { intros b <-. destruct w; cbn; (split; [try tauto; intuition discriminate|eauto]). }
  assert (N : forall b, median_refused w = b -> if b then In w [Druid; Postgres; BigQuery; SqlServer; AzureSynapse; Trino] else ~ In w [Druid; Postgres; BigQuery; SqlServer; AzureSynapse; Trino]).
  { intros b <-. destruct w; cbn; try tauto; intuition discriminate. }
  assert (P : forall x, protected w own f = Err x <-> x = QueryError /\ In w symmetric_warehouses /\ f <> FNone /\ own = None).
  { intros x. unfold protected. destruct (symmetric_supported w) eqn:S; [destruct (W _ eq_refl) as [I _]|destruct (W _ eq_refl) as [I _]; split; [discriminate|tauto]].
    unfold needs_symmetric. destruct f; [split; [discriminate|tauto]|..]; (destruct own; split; [discriminate|intros (_ & _ & _ & [=])|intros [= <-]; repeat split; auto; discriminate|intros (-> & _); reflexivity]). }
  assert (PS : protected w own f = Ok true -> exists d, sym_of w = Some d).
  { unfold protected. destruct (symmetric_supported w); [|discriminate]. intros _. apply (W _ eq_refl). }
  assert (D : forall d, (match sym_of w with Some x => Ok (d x) | None => Err QueryError end : res ax) = Err e <-> e = QueryError /\ ~ In w symmetric_warehouses).
  { intros d. destruct (symmetric_supported w) eqn:S; destruct (W _ eq_refl) as [I J]; [destruct J as (y & ->)|rewrite J]; (split; [intros [= <-] || discriminate; auto|]); intros [-> ?]; [contradiction|reflexivity]. }
  assert (Y : forall (k : bool -> res ax), (protected w own f = Ok true -> exists a, k true = Ok a) -> (exists a, k false = Ok a) -> (bind (protected w own f) k = Err e <-> e = QueryError /\ In w symmetric_warehouses /\ f <> FNone /\ own = None)).
  { intros k T F. rewrite <- P. destruct (protected w own f) as [[]|y]; cbn [bind]; [destruct (T eq_refl) as (a & ->)|destruct F as (a & ->)|]; split; intros H; congruence. }
  destruct t; cbn [aggregate].
  all: try (rewrite Y; [|intros Z; destruct (PS Z) as (y & ->) || destruct pkc; eauto|eauto]; split; [intros (-> & A & B & C); split; [reflexivity|]; right; right; left; cbn [In]; tauto|
    intros (-> & [[[=] _]|[[[[=]|[[=]|[]]] _]|[(_ & A & B & C)|[=]]]]); tauto]).
  all: try (rewrite D; split; [intros (-> & A); split; [reflexivity|]; right; left; cbn [In]; tauto|
    intros (-> & [[[=] _]|[[_ A]|[([[=]|[[=]|[[=]|[]]]] & _)|[=]]]]); tauto]).
  all: try (split; [discriminate|]; intros (_ & [[[=] _]|[[[[=]|[[=]|[]]] _]|[([[=]|[[=]|[[=]|[]]]] & _)|[=]]]])).
  - destruct (median_refused w); specialize (N _ eq_refl); cbv beta iota in N; (split; [intros [= <-] || discriminate; auto|]); intros (-> & [[_ A]|[[[[=]|[[=]|[]]] _]|[([[=]|[[=]|[[=]|[]]]] & _)|[=]]]]); [reflexivity|contradiction].
  - split; [intros [= <-]; auto|intros (-> & _); reflexivity].
Qed.
Print Assumptions C17_refused.

(** C17: measures of views without a key never come back wrong but refuse, as soon as the functional
    key is known and the warehouse supports symmetric aggregates. *)
Theorem C17_no_key_refused t w sql pk dk pkc f : affected t = true -> symmetric_supported w = true -> f <> FNone ->
  aggregate t w sql pk dk pkc None f = Err QueryError.
Proof.
  intros T W N. pose proof (C17_choice t w sql pk dk pkc None f T W) as C.
  destruct (aggregate t w sql pk dk pkc None f) as [a|e].
  - destruct (duplicate_free a); [destruct C as [_ [id [C _]]]; discriminate|]. destruct C as [C|[id [C _]]]; [congruence|discriminate].
  - destruct C as [-> _]. reflexivity.
Qed.
Print Assumptions C17_no_key_refused.

(** A query over one order with two lines: the order's own measure is fanned out. *)
Definition ol : list join := [jn "orders" "lines" O2M].
Definition ol_tab (v : string) : list nat := if String.eqb v "orders" then [1] else [1; 2].
Definition ol_pk (v : string) : option string := Some "id".
Definition ol_key (r : nat) : option string := Some (if Nat.eqb r 1 then "a" else "b").
Definition ol_val (r : nat) : option Q := Some (inject_Z 10).
Definition ol_rows := joined ol_tab (fun _ _ _ => true) (fun _ => KLeft) "orders" ol.
Example C17_case :
  (exists final, joins_from (mk_graph ol) ["orders"] ol final) /\ chained ["orders"] ol /\
  (forall j, In j ol -> agrees ol_tab (fun _ _ _ => true) (jrel j) j) /\
  fpk_of ol_pk "orders" ol = FKey "lines.id" /\
  aggregate TSum Snowflake "x" "k" "" false (pk_id ol_pk "orders") (fpk_of ol_pk "orders" ol) = Ok (sum_symmetric SymSnowflake "x" "k") /\
  aggregate TSum Snowflake "x" "k" "" false (pk_id ol_pk "lines") (fpk_of ol_pk "orders" ol) = Ok (ASum "x") /\
  qeq (eval_agg h0 (sum_symmetric SymSnowflake "x" "k") (map (see "orders" ol_key ol_val) ol_rows)) (Some (inject_Z 10)) /\
  qeq (eval_agg h0 (ASum "x") (map (see "lines" ol_key ol_val) ol_rows)) (Some (inject_Z 20)).
Proof.
  split; [exists ["lines"; "orders"]; repeat (constructor; simpl; [tauto|intuition discriminate|reflexivity|]); constructor|].
  split; [simpl; repeat split; auto; discriminate|].
  split; [intros j [<-|[]]; simpl; intros u1 u2 r I1 I2 _ _ _; simpl in *; intuition congruence|].
  repeat split; vm_compute; reflexivity.
Qed.

(** Findings.  Each emitted aggregate is accepted by the code yet counts the order twice. *)
Definition doubled (w : warehouse) (pk : string -> option string) : Prop :=
  exists a, aggregate TSum w "x" "k" "" false (pk_id pk "orders") (fpk_of pk "orders" ol) = Ok a /\
    forall hash, eval_agg hash a (map (see "orders" ol_key ol_val) ol_rows) = Some (inject_Z 20) /\
                 own_value TSum (own_of "orders" ol_key ol_val ol_rows) = Some (inject_Z 10).

(** On the five other warehouses nothing protects the measure and nothing is reported. *)
Theorem C17_unsupported_warehouse_double_counts_refuted w : symmetric_supported w = false -> doubled w ol_pk.
Proof. intros S. exists (ASum "x"). split; [destruct w; try discriminate; reflexivity|]. intros hash. split; reflexivity. Qed.
Print Assumptions C17_unsupported_warehouse_double_counts_refuted.

(** If the functional key's view declares no primary key, protection is silently off everywhere. *)
Theorem C17_missing_functional_key_double_counts_refuted w :
  doubled w (fun v => if String.eqb v "orders" then Some "id" else None).
Proof.
  exists (ASum "x"). split; [|intros hash; split; reflexivity].
  unfold aggregate, protected. destruct (symmetric_supported w); reflexivity.
Qed.
Print Assumptions C17_missing_functional_key_double_counts_refuted.

(** Two one_to_many joins (C15's failure): the second branch's own measure is emitted plain. *)
Theorem C17_two_fan_outs_double_counts_refuted w : symmetric_supported w = true ->
  let js := [jn "a" "b" O2M; jn "a" "c" O2M] in
  let tab v := if String.eqb v "b" then [1; 2] else [1] in
  let rows := joined tab (fun _ _ _ => true) (fun _ => KLeft) "a" js in
  exists a, aggregate TSum w "x" "k" "" false (pk_id ol_pk "c") (fpk_of ol_pk "a" js) = Ok a /\
    forall hash, eval_agg hash a (map (see "c" ol_key ol_val) rows) = Some (inject_Z 20) /\
                 own_value TSum (own_of "c" ol_key ol_val rows) = Some (inject_Z 10).
Proof.
  intros S. exists (ASum "x"). split; [destruct w; try discriminate; reflexivity|]. intros hash. split; reflexivity.
Qed.
Print Assumptions C17_two_fan_outs_double_counts_refuted.

(** Medians are never protected. *)
Theorem C17_median_fanned_out_refuted hash : exists a rows own,
  aggregate TMedian Snowflake "x" "k" "" false (Some "orders.id") (FKey "lines.id") = Ok a /\ fan_out own rows /\
  ~ qeq (eval_agg hash a rows) (own_value TMedian own).
Proof.
  exists (AMedian "x"), [ARow (Some (inject_Z 1)) (Some "a"); ARow (Some (inject_Z 3)) (Some "b"); ARow (Some (inject_Z 3)) (Some "b")],
    [("a", Some (inject_Z 1)); ("b", Some (inject_Z 3))].
  split; [reflexivity|]. split; [|vm_compute; discriminate].
  split; [|split].
  - repeat constructor; simpl; intuition discriminate.
  - intros r R. simpl in R. repeat (destruct R as [<-|R]; [simpl; tauto|]). destruct R.
  - intros k v I. simpl in I. repeat (destruct I as [E|I]; [inversion E; subst; simpl; tauto|]). destruct I.
Qed.
Print Assumptions C17_median_fanned_out_refuted.
