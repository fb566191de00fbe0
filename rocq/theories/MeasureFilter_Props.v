(** Specification and property theorems: C25. *)
From Coq Require Import QArith Qround.
From Verif Require Import PyBase PyStr JoinGraph_Model Rel_Spec PySort Agg_Model Agg_Spec Agg_Proofs MeasureFilter_Model Filter_Model.
Local Open Scope string_scope.
Local Open Scope list_scope.
Local Open Scope nat_scope.

Section C25.
  Variables C V R : Type.
  Variable conditions : string -> V -> res (list C).
  Variable truth : C -> R -> option bool.          (* SQL truth of a condition on a row; None is UNKNOWN *)
  Variable val : R -> option Q.                    (* the measure's own sql *)
  Variable key : R -> option string.               (* its primary or distinct key *)
  Variable hash : sym -> string -> Z.

  (** CASE: its conjunction must be true; with no condition at all the text is not SQL *)
  Definition passes (cs : list C) (r : R) : bool := forallb (fun c => match truth c r with Some true => true | _ => false end) cs.
  Definition case_value {T} (zero : T) (v : R -> option T) (e : string + mcase C) (r : R) : option T :=
    match e with
    | inl _ => v r
    | inr c => if passes (mc_conds c) r then v r else if mc_else_0 c then Some zero else None
    end.
  Definition valid_sql (e : string + mcase C) : Prop := match e with inl _ => True | inr c => mc_conds c <> [] end.
  (** A row as the aggregate sees it *)
  Definition seen (ve ke : string + mcase C) (r : R) : arow := ARow (case_value 0%Q val ve r) (case_value "" key ke r).

  (** A row satisfies a filter when all of its conditions are true *)
  Definition satisfies (f : mfilter V) (r : R) : bool :=
    match filter_conditions conditions f with Ok cs => passes cs r | Err _ => false end.
  Definition plain (r : R) : arow := ARow (val r) (key r).

  Lemma passes_app a b r : passes (a ++ b) r = passes a r && passes b r.
  Proof. apply forallb_app. Qed.
  Lemma concat_passes fs cs r : concatM (filter_conditions conditions) fs = Ok cs -> passes cs r = forallb (fun f => satisfies f r) fs.
  Proof.
    revert cs. induction fs as [|f fs IH]; intros cs E; cbn [concatM] in E; [injection E as <-; reflexivity|].
    apply bind_ok in E. destruct E as [a [Ea E]]. apply bind_ok in E. destruct E as [b [Eb E]]. injection E as <-.
    rewrite passes_app, (IH b Eb). cbn [forallb]. unfold satisfies at 2. rewrite Ea. reflexivity.
  Qed.
  Lemma filter_all {A} (p : A -> bool) l : (forall x, In x l -> p x = true) -> filter p l = l.
  Proof.
    induction l as [|x l IH]; intros H; [reflexivity|]. cbn [filter]. rewrite (H x (or_introl eq_refl)). f_equal. apply IH. intros y I. apply H. right. exact I.
  Qed.

  (** A masked row contributes to nothing that the generator emits *)
  Lemma somes_masked {B} (g : arow -> option B) (p : R -> bool) rows : g (ARow None None) = None ->
    somes g (map (fun r => if p r then plain r else ARow None None) rows) = somes g (map plain (filter p rows)).
  Proof.
    intros G. unfold somes. induction rows as [|r rows IH]; [reflexivity|]. cbn [map flat_map filter]. rewrite IH.
    destruct (p r); cbn [map flat_map]; [reflexivity|]. rewrite G. reflexivity.
  Qed.
  Lemma sum_sym_masked d s k (p : R -> bool) rows :
    eval_agg hash (sum_symmetric d s k) (map (fun r => if p r then plain r else ARow None None) rows) =
    eval_agg hash (sum_symmetric d s k) (map plain (filter p rows)).
  Proof.
    unfold sum_symmetric. cbn [eval_agg].
    rewrite (somes_masked (eval_num hash (NAdd (NAdjusted d s) (NHash d k)))) by reflexivity.
    rewrite (somes_masked (eval_num hash (NHash d k))) by reflexivity. reflexivity.
  Qed.
  Lemma count_sym_masked s k (p : R -> bool) rows :
    eval_agg hash (count_symmetric s k) (map (fun r => if p r then plain r else ARow None None) rows) =
    eval_agg hash (count_symmetric s k) (map plain (filter p rows)).
  Proof.
    unfold count_symmetric. cbn [eval_agg]. rewrite (somes_masked (eval_key (KIfNotNull s k))) by reflexivity. reflexivity.
  Qed.
  Lemma aggregate_masked t w sql pk dk pkc own f a (p : R -> bool) rows : aggregate t w sql pk dk pkc own f = Ok a ->
    eval_agg hash a (map (fun r => if p r then plain r else ARow None None) rows) = eval_agg hash a (map plain (filter p rows)).
  Proof.
    assert (PL : forall x, match x with ASum _ | ACount _ | AAvg _ | AMax _ | AMin _ | AMedian _ | ACountDistinctVal _ => True | _ => False end ->
               eval_agg hash x (map (fun r => if p r then plain r else ARow None None) rows) = eval_agg hash x (map plain (filter p rows))).
    { intros x X. destruct x; try contradiction; cbn [eval_agg]; rewrite (somes_masked a_val) by reflexivity; reflexivity. }
    intros A. destruct t; cbn [aggregate] in A;
      try (apply bind_ok in A; destruct A as [b [B A]]; destruct b; cbv iota in A);
      repeat match type of A with (match ?x with _ => _ end) = Ok _ => destruct x eqn:?; try discriminate A end;
      try discriminate A; injection A as <-; try (apply PL; exact I); try apply sum_sym_masked; try apply count_sym_masked.
    all: unfold average_symmetric; cbn [eval_agg]; fold (eval_agg hash);
      match goal with |- context [sum_symmetric ?d ?s ?k] => pose proof (sum_sym_masked d s k p rows) as E1; pose proof (count_sym_masked s k p rows) as E2 end;
      rewrite E1, E2; reflexivity.
  Qed.

  (** C25: for every measure type, warehouse and set of rows, the value with filters is the value of the
      same expression over the rows that satisfy every filter.  The measure must not be filtered on a
      field of its own name, and some condition must remain. *)
  Theorem C25_filters name raw default keysql counting fs ve ke t w sqltext pk dk pkc own f a rows :
    measure_sql conditions name raw default counting fs None = Ok ve -> distinct_key conditions keysql fs = Ok ke -> valid_sql ve ->
    (forall g, In g fs -> mf_field g <> Some name) ->
    aggregate t w sqltext pk dk pkc own f = Ok a ->
    eval_agg hash a (map (seen ve ke) rows) = eval_agg hash a (map plain (filter (fun r => forallb (fun g => satisfies g r) fs) rows)).
  Proof.
    intros M K VS ON A. unfold measure_sql in M. set (sql := match raw with Some s => s | None => default end) in M. destruct fs as [|f0 fr].
    - injection M as <-. injection K as <-. rewrite filter_all by reflexivity. reflexivity.
    - remember (f0 :: fr) as fs eqn:EF. assert (NE : fs <> []) by (subst; discriminate). clear EF f0 fr.
      unfold sql_body in M. unfold distinct_key in K. destruct fs as [|f0 fr]; [congruence|].
      destruct (String.eqb sql "*"); [discriminate M|].
      rewrite (filter_all (other_field name)) in M.
      2:{ intros g I. unfold other_field. specialize (ON g I). destruct (mf_field g) as [x|]; [|reflexivity].
          destruct (String.eqb_spec x name) as [->|_]; [congruence | reflexivity]. }
      rewrite app_nil_r in M.
      apply bind_ok in K. destruct K as [c' [T' K]]. injection K as <-.
      unfold translate in M, T'. apply bind_ok in T'. destruct T' as [cs [E T']]. injection T' as <-. rewrite E in M. injection M as <-.
      rewrite <- (aggregate_masked t w sqltext pk dk pkc own f a (fun r => forallb (fun g => satisfies g r) (f0 :: fr)) rows A).
      f_equal. apply map_ext. intros r. unfold seen, case_value. cbn [mc_conds mc_else_0]. rewrite (concat_passes _ _ r E).
      destruct (forallb _ (f0 :: fr)); reflexivity.
  Qed.

  (** Filters without a field or a value are skipped; a value without conditions (an empty text) also *)
  Theorem C25_incomplete_filters_skipped f r : mf_field f = None \/ mf_value f = None -> satisfies f r = true.
  Proof. intros H. unfold satisfies, filter_conditions. destruct (mf_field f), (mf_value f), H as [H|H]; try discriminate H; reflexivity. Qed.

  (** A measure without sql of its own, one of whose filters cannot be read, is refused with a QueryError when the reading failed with an
      AttributeError, and with the error of the reading otherwise *)
  Theorem C25_unreadable_refused name default counting before f after e : default <> "*" -> (forall g, In g (before ++ f :: after) -> mf_field g <> Some name) ->
    Forall (fun g => exists cs, filter_conditions conditions g = Ok cs) before -> filter_conditions conditions f = Err e ->
    measure_sql conditions name None default counting (before ++ f :: after) None = Err (match e with AttributeError => QueryError | _ => e end).
  Proof.
    intros S ON B F. unfold measure_sql, sql_body. destruct (before ++ f :: after) eqn:L; [destruct before; discriminate L|]. rewrite <- L in *. clear L.
    destruct (String.eqb_spec default "*") as [E|_]; [congruence|]. rewrite app_nil_r.
    assert (FL : filter (other_field name) (before ++ f :: after) = before ++ f :: after).
    { clear - ON. induction (before ++ f :: after) as [|g l IH]; [reflexivity|]. cbn [filter]. rewrite IH by (intros x X; apply ON; now right).
      unfold other_field. specialize (ON g (or_introl eq_refl)). destruct (mf_field g) as [x|]; [|reflexivity]. destruct (String.eqb_spec x name) as [->|_]; [congruence | reflexivity]. }
    rewrite FL.
    assert (E : concatM (filter_conditions conditions) (before ++ f :: after) = Err e).
    { clear - B F. induction B as [|g before [cs G] B IH]; cbn [app concatM]; [rewrite F; reflexivity|]. rewrite G. cbn [bind]. rewrite IH. reflexivity. }
    unfold translate. rewrite E. cbn [bind]. destruct e; reflexivity.
  Qed.
  (** Counting everything cannot be filtered *)
  Theorem C25_star_refused name raw default counting fs extra : raw = Some "*" \/ raw = None /\ default = "*" -> fs <> [] \/ extra <> None ->
    measure_sql conditions name raw default counting fs extra = Err QueryError.
  Proof. intros S H. unfold measure_sql, sql_body. destruct S as [-> | [-> ->]]; destruct fs, extra; try reflexivity; destruct H; congruence. Qed.

  (** Non additive measures: rows outside the chosen date count as 0 in a sum, and not at all in counts *)
  Theorem C25_non_additive_sum name sql default fs extra ve cs rows :
    measure_sql conditions name (Some sql) default false fs (Some extra) = Ok ve ->
    concatM (filter_conditions conditions) (filter (other_field name) fs ++ extra) = Ok cs ->
    same_or_zero (eval_agg hash (ASum sql) (map (seen ve (inl "")) rows))
                 (eval_agg hash (ASum sql) (map plain (filter (passes cs) rows))).
  Proof.
    intros M E.
    assert (VE : ve = inr (MCase cs sql true)).
    { unfold measure_sql, sql_body in M. destruct fs; (destruct (String.eqb sql "*"); [discriminate M|]); unfold translate in M; cbn [filter app] in *; rewrite E in M; cbn [bind] in M; injection M as <-; reflexivity. }
    subst ve. unfold same_or_zero. cbn [eval_agg].
    assert (H : Qeq (qsum (somes a_val (map (seen (inr (MCase cs sql true)) (inl "")) rows))) (qsum (somes a_val (map plain (filter (passes cs) rows))))).
    { induction rows as [|r rows IH]; [reflexivity|]. unfold somes in *. cbn [map flat_map filter].
      unfold seen at 1, case_value at 1. cbn [mc_conds mc_else_0 a_val]. destruct (passes cs r); cbn [map flat_map].
      - unfold plain at 1. cbn [a_val]. destruct (val r) as [q|]; cbn [app]; [|exact IH]. unfold qsum in *. cbn [fold_right]. rewrite IH. reflexivity.
      - unfold qsum in *. cbn [app fold_right]. rewrite IH. apply Qplus_0_l. }
    destruct (somes a_val (map (seen _ _) rows)) as [|x l]; destruct (somes a_val (map plain _)) as [|y m]; exact H.
  Qed.
  Theorem C25_non_additive_count name sql default fs extra ve cs rows :
    measure_sql conditions name (Some sql) default true fs (Some extra) = Ok ve ->
    concatM (filter_conditions conditions) (filter (other_field name) fs ++ extra) = Ok cs ->
    eval_agg hash (ACount sql) (map (seen ve (inl "")) rows) = eval_agg hash (ACount sql) (map plain (filter (passes cs) rows)).
  Proof.
    intros M E.
    assert (VE : ve = inr (MCase cs sql false)).
    { unfold measure_sql, sql_body in M. destruct fs; (destruct (String.eqb sql "*"); [discriminate M|]); unfold translate in M; cbn [filter app] in *; rewrite E in M; cbn [bind] in M; injection M as <-; reflexivity. }
    subst ve. cbn [eval_agg]. do 2 f_equal. unfold somes. induction rows as [|r rows IH]; [reflexivity|].
    cbn [map flat_map filter]. rewrite IH. unfold seen at 1, case_value at 1. cbn [mc_conds mc_else_0 a_val].
    destruct (passes cs r); reflexivity.
  Qed.
End C25.
Print Assumptions C25_unreadable_refused.
Print Assumptions C25_filters.
Print Assumptions C25_incomplete_filters_skipped.
Print Assumptions C25_star_refused.
Print Assumptions C25_non_additive_sum.
Print Assumptions C25_non_additive_count.

(** A concrete measure: rows are (region, amount); filter region = 1 *)
Definition ex_conditions (fld : string) (v : nat) : res (list (string * nat)) := Ok [(fld, v)].
Definition ex_truth (c : string * nat) (r : nat * option Q) : option bool :=
  if String.eqb (fst c) "region" then Some (Nat.eqb (fst r) (snd c))
  else match snd r with None => None | Some q => Some (negb (Qle_bool q (inject_Z (Z.of_nat (snd c))))) end.
Definition ex_rows : list (nat * option Q) := [(1, Some 5%Q); (2, Some 7%Q); (1, None); (1, Some 3%Q)].
Example C25_case :
  let f := MFilter (Some "region") (Some 1) in
  exists ve ke, measure_sql ex_conditions "revenue" (Some "amount") "*" false [f] None = Ok ve /\ distinct_key ex_conditions "id" [f] = Ok ke /\
    valid_sql _ ve /\ mf_field f <> Some "revenue" /\
    eval_agg (fun _ _ => 0%Z) (ASum "") (map (seen _ _ ex_truth snd (fun _ => Some "") ve ke) ex_rows) = Some 8%Q.
Proof. do 2 eexists. split; [reflexivity|]. split; [reflexivity|]. split; [discriminate|]. split; [discriminate|]. vm_compute. reflexivity. Qed.

(** *** Filters on a field with the measure's own name are dropped *)
(** ... from its sql: rows failing the filter are aggregated (amount > 4, on a measure called "amount") *)
Theorem C25_own_name_filter_ignored_refuted :
  exists fs ve ke rows, measure_sql ex_conditions "amount" (Some "amount") "*" false fs None = Ok ve /\ distinct_key ex_conditions "id" fs = Ok ke /\ valid_sql _ ve /\
    ~ qeq (eval_agg (fun _ _ => 0%Z) (ASum "") (map (seen _ _ ex_truth snd (fun _ => Some "") ve ke) rows))
          (eval_agg (fun _ _ => 0%Z) (ASum "") (map (plain _ snd (fun _ => Some "")) (filter (fun r => forallb (fun g => satisfies _ _ _ ex_conditions ex_truth g r) fs) rows))).
Proof.
  exists [MFilter (Some "region") (Some 1); MFilter (Some "amount") (Some 4)]. do 2 eexists. exists ex_rows.
  split; [reflexivity|]. split; [reflexivity|]. split; [discriminate|]. vm_compute. discriminate.
Qed.
Print Assumptions C25_own_name_filter_ignored_refuted.
(** ... but not from its key, so the same measure is larger without fan-out protection than with it *)
Definition ex_hash (d : sym) (k : string) : Z := Z.of_nat (String.length k).
Theorem C25_own_name_filter_inconsistent_refuted :
  exists fs ve ke rows, measure_sql ex_conditions "amount" (Some "amount") "*" false fs None = Ok ve /\ distinct_key ex_conditions "id" fs = Ok ke /\ valid_sql _ ve /\
    let key := fun r : nat * option Q => Some (match snd r with Some 5%Q => "a" | Some 7%Q => "ab" | Some 3%Q => "abc" | _ => "abcd" end) in
    ~ qeq (eval_agg ex_hash (ASum "") (map (seen _ _ ex_truth snd key ve ke) rows))
          (eval_agg ex_hash (sum_symmetric SymSnowflake "" "") (map (seen _ _ ex_truth snd key ve ke) rows)).
Proof.
  exists [MFilter (Some "region") (Some 1); MFilter (Some "amount") (Some 4)]. do 2 eexists. exists ex_rows.
  split; [reflexivity|]. split; [reflexivity|]. split; [discriminate|]. vm_compute. discriminate.
Qed.
Print Assumptions C25_own_name_filter_inconsistent_refuted.
(** ... and when it is the only one, or when no filter yields a condition, "case when  then" is left *)
Theorem C25_no_condition_left_refuted :
  exists ve, measure_sql ex_conditions "amount" (Some "amount") "*" false [MFilter (Some "amount") (Some 4)] None = Ok ve /\ ~ valid_sql _ ve.
Proof. eexists. split; [reflexivity|]. intros H. apply H. reflexivity. Qed.
Print Assumptions C25_no_condition_left_refuted.
(** *** Non additive averages, maxima and minima count the excluded rows as zeros *)
Theorem C25_non_additive_else_0_refuted :
  exists extra ve rows, measure_sql ex_conditions "m" (Some "amount") "*" false [] (Some extra) = Ok ve /\
    let v := fun t => eval_agg (fun _ _ => 0%Z) t (map (seen _ _ ex_truth snd (fun _ => None) ve (inl "")) rows) in
    let p := fun t => eval_agg (fun _ _ => 0%Z) t (map (plain _ snd (fun _ => None)) (filter (fun r => forallb (fun g => satisfies _ _ _ ex_conditions ex_truth g r) extra) rows)) in
    ~ qeq (v (AAvg "")) (p (AAvg "")) /\ ~ qeq (v (AMin "")) (p (AMin "")).
Proof.
  exists [MFilter (Some "region") (Some 1)]. eexists. exists ex_rows. split; [reflexivity|]. split; vm_compute; discriminate.
Qed.
Print Assumptions C25_non_additive_else_0_refuted.

(** *** A filter whose value cannot be read removes every filter of the measure *)
(** When a filter raises AttributeError the property falls back to the sql of the definition, so all rows are
    aggregated and no error is reported: for every measure, list of filters, and rows. *)
Theorem C25_unreadable_filter_dropped_refuted C V R conditions (truth : C -> R -> option bool) val key hash name sql default counting (before : list (mfilter V)) f after a rows :
  sql <> "*" -> (forall g, In g (before ++ f :: after) -> mf_field g <> Some name) ->
  Forall (fun g => exists cs, filter_conditions conditions g = Ok cs) before -> filter_conditions conditions f = Err AttributeError ->
  exists ve, measure_sql (C := C) conditions name (Some sql) default counting (before ++ f :: after) None = Ok ve /\ valid_sql _ ve /\
    eval_agg hash a (map (seen C R truth val key ve (inl "")) rows) = eval_agg hash a (map (plain R val key) rows).
Proof.
  intros S ON B F. exists (inl sql). split; [|split; [exact I | reflexivity]].
  unfold measure_sql, sql_body. destruct (before ++ f :: after) eqn:L; [destruct before; discriminate L|]. rewrite <- L in *. clear L.
  destruct (String.eqb_spec sql "*") as [E|_]; [congruence|]. rewrite app_nil_r.
  rewrite (filter_all (other_field name)).
  2:{ intros g I. unfold other_field. specialize (ON g I). destruct (mf_field g) as [x|]; [|reflexivity].
      destruct (String.eqb_spec x name) as [->|_]; [congruence | reflexivity]. }
  assert (E : concatM (filter_conditions conditions) (before ++ f :: after) = Err AttributeError).
  { clear - B F. induction B as [|g before [cs G] B IH]; cbn [app concatM]; [rewrite F; reflexivity|]. rewrite G. cbn [bind]. rewrite IH. reflexivity. }
  unfold translate. rewrite E. reflexivity.
Qed.
Print Assumptions C25_unreadable_filter_dropped_refuted.
(** Such a value is any integer of two or more that Filter._filter_dict receives as an integer: "quantity: 5". *)
Example C25_unreadable_case num now g w :
  let conditions fld v := (cs <- fst (filter_dict num now g v w) ;; Ok (map (fun c => (fld, c)) cs)) in
  let fs := [MFilter (Some "region") (Some (VStr "west")); MFilter (Some "quantity") (Some (VInt 5))] in
  measure_sql conditions "revenue" (Some "${TABLE}.amount") "*" false fs None = Ok (inl "${TABLE}.amount").
Proof. reflexivity. Qed.
