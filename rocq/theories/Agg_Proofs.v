From Coq Require Import QArith Qround Permutation Lia.
From Verif Require Import PyBase PyStr JoinGraph_Model Rel_Model Rel_Spec Rel_Proofs PySort Agg_Model Agg_Spec.
Local Open Scope string_scope.
Local Open Scope list_scope.
Local Open Scope nat_scope.

Lemma somes_In {A B} (f : A -> option B) l y : In y (somes f l) <-> exists x, In x l /\ f x = Some y.
Proof.
  unfold somes. rewrite in_flat_map. split; intros [x [I E]]; exists x; split; auto.
  - destruct (f x); [destruct E as [->|[]]; auto|destruct E].
  - rewrite E. left; auto.
Qed.

Lemma zsum_perm l m : Permutation l m -> zsum l = zsum m.
Proof. unfold zsum. induction 1; simpl; lia. Qed.
Lemma zsum_app l m : zsum (l ++ m) = (zsum l + zsum m)%Z.
Proof. unfold zsum. induction l; simpl; lia. Qed.
Lemma zsum_add {A} (f g : A -> Z) l : zsum (map (fun x => (f x + g x)%Z) l) = (zsum (map f l) + zsum (map g l))%Z.
Proof. unfold zsum. induction l; simpl; lia. Qed.

Lemma NoDup_map_In {A B} (f : A -> B) l :
  NoDup l -> (forall x y, In x l -> In y l -> f x = f y -> x = y) -> NoDup (map f l).
Proof.
  induction 1 as [|a l N ND IH]; simpl; intros I; constructor; auto.
  intros M. apply in_map_iff in M. destruct M as [b [E M]]. assert (b = a) by (apply I; auto). subst. auto.
Qed.
Lemma NoDup_fst {A B} (l : list (A * B)) : NoDup (map fst l) -> NoDup l.
Proof. apply NoDup_map_inv. Qed.
Lemma fst_functional {A B} (l : list (A * B)) k v v' : NoDup (map fst l) -> In (k, v) l -> In (k, v') l -> v = v'.
Proof.
  induction l as [|[a b] l IH]; simpl; intros N I J; [destruct I|]. inversion N as [|? ? N1 N2]; subst.
  destruct I as [I|I]; destruct J as [J|J].
  - congruence.
  - inversion I; subst. exfalso. apply N1. apply in_map_iff. exists (k, v'); auto.
  - inversion J; subst. exfalso. apply N1. apply in_map_iff. exists (k, v); auto.
  - auto.
Qed.

(** Distinct values of an injective image of the own rows *)
Lemma distinct_image {B} (dec : forall a b : B, {a = b} + {a <> b}) (f : arow -> option B) (g : string * option Q -> B) own rows :
  fan_out own rows ->
  (forall r, In r rows -> f r = match a_key r with Some k => Some (g (k, a_val r)) | None => None end) ->
  (forall x y, In x own -> In y own -> g x = g y -> x = y) ->
  Permutation (nodup dec (somes f rows)) (map g own).
Proof.
  intros [ND [F B1]] E I. apply NoDup_Permutation.
  - apply NoDup_nodup.
  - apply NoDup_map_In; auto. apply NoDup_fst; auto.
  - intros y. rewrite nodup_In, somes_In, in_map_iff. split.
    + intros [r [R Y]]. rewrite E in Y by auto. specialize (F r R). destruct (a_key r) as [k|]; [|discriminate].
      inversion Y; subst. eauto.
    + intros [[k v] [<- O]]. exists (ARow v (Some k)). split; [auto|]. rewrite E by auto. reflexivity.
Qed.

Lemma own_eq (own : own_table) x y : NoDup (map fst own) -> In x own -> In y own -> fst x = fst y -> x = y.
Proof. destruct x as [k v], y as [k' v']. simpl. intros N I J ->. f_equal. eapply fst_functional; eauto. Qed.

Section Sym.
  Variable hash : sym -> string -> Z.

  Lemma sum_distinct_hash d key own rows :
    fan_out own rows -> no_collision hash d own ->
    Permutation (nodup Z.eq_dec (somes (eval_num hash (NHash d key)) rows)) (map (fun x => hash d (fst x)) own).
  Proof.
    intros FO [H1 _]. apply distinct_image; auto.
    - intros [k v] [k' v'] X Y E. simpl in E. apply own_eq with (own := own); auto; [apply FO|]. simpl. eapply H1; eauto.
  Qed.
  Lemma sum_distinct_adj d sql key own rows :
    fan_out own rows -> no_collision hash d own ->
    Permutation (nodup Z.eq_dec (somes (eval_num hash (NAdd (NAdjusted d sql) (NHash d key))) rows))
      (map (fun x => (micros (snd x) + hash d (fst x))%Z) own).
  Proof.
    intros FO [_ H2]. apply distinct_image; auto.
    - intros r _. simpl. destruct (a_key r); auto.
    - intros [k v] [k' v'] X Y E. simpl in E. apply own_eq with (own := own); auto; [apply FO|]. simpl. eapply H2; eauto.
  Qed.

  Lemma symmetric_sum_micros d sql key own rows :
    fan_out own rows -> no_collision hash d own ->
    qeq (eval_agg hash (sum_symmetric d sql key) rows)
        (Some (Qdiv (inject_Z (zsum (map (fun x => micros (snd x)) own))) (inject_Z million))).
  Proof.
    intros FO NC. pose proof (sum_distinct_adj d sql key own rows FO NC) as P1.
    pose proof (sum_distinct_hash d key own rows FO NC) as P2.
    unfold sum_symmetric. cbn [eval_agg].
    destruct (nodup Z.eq_dec (somes (eval_num hash (NAdd (NAdjusted d sql) (NHash d key))) rows)) as [|a l] eqn:E1.
    - apply Permutation_nil in P1. destruct own; [|discriminate]. simpl. reflexivity.
    - destruct (nodup Z.eq_dec (somes (eval_num hash (NHash d key)) rows)) as [|b m] eqn:E2.
      + apply Permutation_nil in P2. destruct own; [|discriminate]. apply Permutation_sym, Permutation_nil in P1. discriminate.
      + rewrite (zsum_perm _ _ P1), (zsum_perm _ _ P2), zsum_add. cbn [qeq]. unfold Qminus, Qdiv.
        rewrite <- inject_Z_opp, <- inject_Z_plus.
        replace (zsum (map (fun x => micros (snd x)) own) + zsum (map (fun x => hash d (fst x)) own)
                 + - zsum (map (fun x => hash d (fst x)) own))%Z
          with (zsum (map (fun x => micros (snd x)) own)) by lia. reflexivity.
  Qed.

  Lemma micros_exact (q : Q) (z : Z) : Qeq (Qmult q (inject_Z million)) (inject_Z z) -> micros (Some q) = z.
  Proof. intros E. unfold micros. rewrite E. apply Qfloor_Z. Qed.

  Lemma whole_sum own : whole_micros own ->
    Qeq (Qdiv (inject_Z (zsum (map (fun x => micros (snd x)) own))) (inject_Z million)) (qsum (own_vals own)).
  Proof.
    induction own as [|[k v] own IH]; intros W; simpl; [reflexivity|].
    assert (W' : whole_micros own) by (intros k' q I; apply (W k' q); right; auto).
    specialize (IH W'). unfold zsum, own_vals, somes, qsum in *. simpl. rewrite inject_Z_plus.
    unfold Qdiv in *. rewrite Qmult_plus_distr_l, IH. destruct v as [q|]; simpl.
    - destruct (W k q) as [z Z]; [left; auto|]. rewrite (micros_exact q z Z), <- Z.
      rewrite <- Qmult_assoc, Qmult_inv_r by discriminate. rewrite Qmult_1_r. reflexivity.
    - assert (micros None = 0%Z) as -> by reflexivity. change (inject_Z 0) with 0%Q. rewrite Qmult_0_l, Qplus_0_l. reflexivity.
  Qed.

  Lemma symmetric_sum d sql key own rows :
    fan_out own rows -> no_collision hash d own -> whole_micros own ->
    qeq (eval_agg hash (sum_symmetric d sql key) rows) (Some (qsum (own_vals own))).
  Proof.
    intros FO NC W. pose proof (symmetric_sum_micros d sql key own rows FO NC) as H.
    destruct (eval_agg hash (sum_symmetric d sql key) rows) as [x|]; simpl in *; auto. rewrite H. apply whole_sum; auto.
  Qed.

  Lemma nonnull_length own : List.length (own_vals own) = List.length (filter (fun x : string * option Q => match snd x with Some _ => true | None => false end) own).
  Proof. unfold own_vals, somes. induction own as [|[k [q|]] own IH]; simpl; auto. Qed.

  Lemma symmetric_count_keys sql key own rows :
    fan_out own rows ->
    List.length (nodup string_dec (somes (eval_key (KIfNotNull sql key)) rows)) = List.length (own_vals own).
  Proof.
    intros [ND [F B]]. rewrite nonnull_length.
    rewrite <- (map_length (@fst string (option Q)) (filter _ own)).
    apply Permutation_length, NoDup_Permutation; [apply NoDup_nodup| |].
    - apply NoDup_map_In; [apply NoDup_filter, NoDup_fst; auto|].
      intros x y X Y E. apply filter_In in X. apply filter_In in Y. apply own_eq with (own := own); tauto.
    - intros k. rewrite nodup_In, somes_In, in_map_iff. split.
      + intros [r [R E]]. simpl in E. specialize (F r R). destruct (a_val r) as [q|] eqn:V; [|discriminate].
        rewrite E in F. exists (k, Some q). split; auto. apply filter_In. auto.
      + intros [[k' v] [E I]]. simpl in E. subst. apply filter_In in I. destruct I as [I V]. simpl in V.
        destruct v as [q|]; [|discriminate]. exists (ARow (Some q) (Some k)). split; [auto|reflexivity].
  Qed.

  Lemma qlen_zero {A} (l : list A) : Qeq_bool (qlen l) 0%Q = match l with [] => true | _ => false end.
  Proof.
    destruct l as [|a l]; [reflexivity|]. apply not_true_is_false. intros E. apply Qeq_bool_eq in E.
    unfold qlen, Qeq in E. simpl in E. lia.
  Qed.
  Lemma qlen_eq {A B} (l : list A) (m : list B) : List.length l = List.length m -> qlen l = qlen m.
  Proof. unfold qlen. intros ->. auto. Qed.

  Lemma symmetric_count sql key own rows : fan_out own rows ->
    eval_agg hash (count_symmetric sql key) rows = match own_vals own with [] => None | l => Some (qlen l) end.
  Proof.
    intros FO. pose proof (symmetric_count_keys sql key own rows FO) as L. unfold count_symmetric. cbn [eval_agg].
    rewrite qlen_zero. apply qlen_eq in L as Q. rewrite Q.
    destruct (nodup string_dec (somes (eval_key (KIfNotNull sql key)) rows)); destruct (own_vals own); simpl in *; auto; discriminate.
  Qed.

  Lemma eval_div a b rows : eval_agg hash (ADiv a b) rows =
    match eval_agg hash a rows, eval_agg hash b rows with
    | Some x, Some y => if Qeq_bool y 0%Q then None else Some (Qdiv x y)
    | _, _ => None
    end.
  Proof. reflexivity. Qed.

  Lemma symmetric_average d sql key own rows :
    fan_out own rows -> no_collision hash d own -> whole_micros own ->
    qeq (eval_agg hash (average_symmetric d sql key) rows) (own_value TAverage own).
  Proof.
    intros FO NC W. pose proof (symmetric_sum d sql key own rows FO NC W) as S.
    pose proof (symmetric_count sql key own rows FO) as C.
    unfold average_symmetric. rewrite eval_div, C.
    destruct (eval_agg hash (sum_symmetric d sql key) rows) as [x|]; simpl in S; [|destruct S].
    unfold own_value. destruct (own_vals own) as [|q l]; [exact I|].
    rewrite qlen_zero. cbn [qeq]. rewrite S. reflexivity.
  Qed.
End Sym.

(** Maximum and minimum *)
Lemma qmax_spec l m : qpick (fun y m => negb (Qle_bool y m)) l = Some m -> In m l /\ forall y, In y l -> Qle y m.
Proof.
  destruct l as [|x l]; [discriminate|]. simpl. intros E. inversion E as [E1]. clear E.
  assert (G : forall l x, let r := fold_left (fun m y => if negb (Qle_bool y m) then y else m) l x in
             (In r (x :: l)) /\ Qle x r /\ forall y, In y l -> Qle y r).
  { clear. induction l as [|a l IH]; intros x; simpl.
    - split; auto. split; [apply Qle_refl|tauto].
    - destruct (IH (if negb (Qle_bool a x) then a else x)) as [A [B C]]. simpl in A, B, C.
      assert (LX : Qle x (if negb (Qle_bool a x) then a else x) /\ Qle a (if negb (Qle_bool a x) then a else x)).
      { destruct (Qle_bool a x) eqn:L; simpl.
        - apply Qle_bool_iff in L. split; [apply Qle_refl|auto].
        - split; [|apply Qle_refl]. apply Qlt_le_weak. apply Qnot_le_lt. intros N. apply Qle_bool_iff in N. congruence. }
      destruct LX as [L1 L2].
      split; [|split].
      + destruct A as [A|A]; auto. rewrite <- A. destruct (negb (Qle_bool a x)); auto.
      + eapply Qle_trans; eauto.
      + intros y [<-|Y]; [eapply Qle_trans; eauto|auto]. }
  destruct (G l x) as [A [B C]]. split; auto. intros y [<-|Y]; auto.
Qed.
Lemma qmin_spec l m : qpick (fun y m => negb (Qle_bool m y)) l = Some m -> In m l /\ forall y, In y l -> Qle m y.
Proof.
  destruct l as [|x l]; [discriminate|]. simpl. intros E. inversion E as [E1]. clear E.
  assert (G : forall l x, let r := fold_left (fun m y => if negb (Qle_bool m y) then y else m) l x in
             (In r (x :: l)) /\ Qle r x /\ forall y, In y l -> Qle r y).
  { clear. induction l as [|a l IH]; intros x; simpl.
    - split; auto. split; [apply Qle_refl|tauto].
    - destruct (IH (if negb (Qle_bool x a) then a else x)) as [A [B C]]. simpl in A, B, C.
      assert (LX : Qle (if negb (Qle_bool x a) then a else x) x /\ Qle (if negb (Qle_bool x a) then a else x) a).
      { destruct (Qle_bool x a) eqn:L; simpl.
        - apply Qle_bool_iff in L. split; [apply Qle_refl|auto].
        - split; [|apply Qle_refl]. apply Qlt_le_weak. apply Qnot_le_lt. intros N. apply Qle_bool_iff in N. congruence. }
      destruct LX as [L1 L2].
      split; [|split].
      + destruct A as [A|A]; auto. rewrite <- A. destruct (negb (Qle_bool x a)); auto.
      + eapply Qle_trans; eauto.
      + intros y [<-|Y]; [eapply Qle_trans; eauto|auto]. }
  destruct (G l x) as [A [B C]]. split; auto. intros y [<-|Y]; auto.
Qed.

Lemma same_set_nil {A} (l m : list A) : (forall x, In x l <-> In x m) -> l = [] -> m = [].
Proof. intros S ->. destruct m as [|a m]; auto. destruct (proj2 (S a)); left; auto. Qed.
Lemma qmax_set l m : (forall x, In x l <-> In x m) ->
  qeq (qpick (fun y m => negb (Qle_bool y m)) l) (qpick (fun y m => negb (Qle_bool y m)) m).
Proof.
  intros S. destruct (qpick _ l) as [a|] eqn:E1; destruct (qpick _ m) as [b|] eqn:E2.
  - apply qmax_spec in E1. apply qmax_spec in E2. destruct E1 as [A1 A2]. destruct E2 as [B1 B2]. simpl.
    apply Qle_antisym; [apply B2|apply A2]; apply S; auto.
  - destruct m; [|discriminate]. rewrite (same_set_nil [] l) in E1; [discriminate|firstorder|auto].
  - destruct l; [|discriminate]. rewrite (same_set_nil [] m) in E2; [discriminate|firstorder|auto].
  - exact I.
Qed.
Lemma qmin_set l m : (forall x, In x l <-> In x m) ->
  qeq (qpick (fun y m => negb (Qle_bool m y)) l) (qpick (fun y m => negb (Qle_bool m y)) m).
Proof.
  intros S. destruct (qpick _ l) as [a|] eqn:E1; destruct (qpick _ m) as [b|] eqn:E2.
  - apply qmin_spec in E1. apply qmin_spec in E2. destruct E1 as [A1 A2]. destruct E2 as [B1 B2]. simpl.
    apply Qle_antisym; [apply A2|apply B2]; apply S; auto.
  - destruct m; [|discriminate]. rewrite (same_set_nil [] l) in E1; [discriminate|firstorder|auto].
  - destruct l; [|discriminate]. rewrite (same_set_nil [] m) in E2; [discriminate|firstorder|auto].
  - exact I.
Qed.
Lemma qdistinct_set l m : (forall x, In x l <-> In x m) -> qlen (qdistinct l) = qlen (qdistinct m).
Proof.
  intros S. apply qlen_eq. apply Permutation_length, NoDup_Permutation; try apply NoDup_nodup.
  intros x. unfold qdistinct. rewrite !nodup_In, !in_map_iff. firstorder.
Qed.

Lemma fan_out_vals own rows : fan_out own rows -> forall q, In q (somes a_val rows) <-> In q (own_vals own).
Proof.
  intros [_ [F B]] q. unfold own_vals. rewrite !somes_In. split.
  - intros [r [R E]]. specialize (F r R). destruct (a_key r) as [k|]; [|congruence].
    exists (k, a_val r). auto.
  - intros [[k v] [I E]]. simpl in E. subst. exists (ARow (Some q) (Some k)). auto.
Qed.

(** A fan-out without repetition gives the same list of values up to order. *)
Lemma fan_out_once own rows : fan_out own rows -> NoDup (somes a_key rows) -> Permutation (somes a_val rows) (own_vals own).
Proof.
  intros [ND [F B]] N.
  set (f := fun r : arow => match a_key r with Some k => Some (k, a_val r) | None => None end).
  assert (M : forall l, map fst (somes f l) = somes a_key l).
  { induction l as [|r l IH]; simpl; auto. unfold f at 1. destruct (a_key r); simpl; rewrite IH; auto. }
  assert (P : Permutation (somes f rows) own).
  { apply NoDup_Permutation.
    - apply NoDup_fst. rewrite M. auto.
    - apply NoDup_fst; auto.
    - intros [k v]. rewrite somes_In. split.
      + intros [r [R E]]. specialize (F r R). unfold f in E. destruct (a_key r); [|discriminate]. inversion E; subst. auto.
      + intros I. exists (ARow v (Some k)). split; auto. }
  assert (V : somes a_val rows = own_vals (somes f rows)).
  { clear - F. induction rows as [|r rows IH]; simpl; auto.
    pose proof (F r (or_introl eq_refl)) as Fr. unfold own_vals, somes in *. simpl. rewrite flat_map_app.
    rewrite <- IH by (intros; apply F; right; auto). unfold f. destruct (a_key r) as [k|] eqn:K.
    - simpl. rewrite app_nil_r. auto.
    - rewrite Fr. auto. }
  rewrite V. unfold own_vals, somes. apply Permutation_flat_map. exact P.
Qed.

Lemma qsum_perm l m : Permutation l m -> Qeq (qsum l) (qsum m).
Proof.
  induction 1; simpl; try reflexivity.
  - unfold qsum in *. simpl. rewrite IHPermutation. reflexivity.
  - unfold qsum. simpl. rewrite !Qplus_assoc. rewrite (Qplus_comm y x). reflexivity.
  - etransitivity; eauto.
Qed.

(** The rows a measure sees are a fan-out of the own rows they contain *)
Lemma see_fan_out m key val rows (T : list nat) :
  (forall r, In r (occ m rows) -> In r T) ->
  (forall r, In r T -> key r <> None) -> unique_key key T ->
  fan_out (own_of m key val rows) (map (see m key val) rows).
Proof.
  intros W KN U. unfold own_of. split; [|split].
  - assert (G : forall l, NoDup l -> (forall r, In r l -> In r T) ->
       NoDup (map fst (somes (fun r => match key r with Some k => Some (k, val r) | None => None end) l))).
    { induction 1 as [|r l N ND IH]; intros I; simpl; [constructor|].
      destruct (key r) as [k|] eqn:K; simpl; [|apply IH; intros; apply I; right; auto].
      constructor; [|apply IH; intros; apply I; right; auto].
      intros M. apply in_map_iff in M. destruct M as [[k' v'] [E M]]. simpl in E. subst k'.
      apply somes_In in M. destruct M as [r' [R' E']]. destruct (key r') as [k'|] eqn:K'; [|discriminate].
      inversion E'; subst. apply N. replace r with r'; auto.
      eapply U; eauto; apply I; [right|left]; auto. }
    apply G; [apply NoDup_nodup|]. intros r R. apply nodup_In in R. auto.
  - intros a A. apply in_map_iff in A. destruct A as [c [<- C]]. unfold see.
    destruct (assoc m c) as [r|] eqn:E; simpl; auto.
    assert (O : In r (occ m rows)). { unfold occ. apply in_flat_map. exists c. rewrite E. split; [auto|left; auto]. }
    destruct (key r) as [k|] eqn:K; [|exfalso; eapply KN; eauto].
    apply somes_In. exists r. rewrite K. split; auto. apply nodup_In. auto.
  - intros k v I. apply somes_In in I. destruct I as [r [R E]]. apply nodup_In in R.
    destruct (key r) as [k'|] eqn:K; [|discriminate]. inversion E; subst.
    unfold occ in R. apply in_flat_map in R. destruct R as [c [C R]]. destruct (assoc m c) as [r'|] eqn:A; [|destruct R].
    destruct R as [->|[]]. apply in_map_iff. exists c. split; auto. unfold see. rewrite A, K. auto.
Qed.

Lemma see_keys m key val rows : somes a_key (map (see m key val) rows) = somes key (occ m rows).
Proof.
  unfold somes, occ. induction rows as [|c rows IH]; simpl; auto. rewrite flat_map_app, IH. f_equal.
  unfold see. destruct (assoc m c); simpl; auto. rewrite app_nil_r. auto.
Qed.

Lemma occ_filter_NoDup v p rows : NoDup (occ v rows) -> NoDup (occ v (filter p rows)).
Proof.
  unfold occ. induction rows as [|c rows IH]; simpl; auto. intros N. apply NoDup_app_iff in N. destruct N as [N1 [N2 N3]].
  destruct (p c); simpl; auto. apply NoDup_app_iff. split; auto. split; auto.
  intros x X Y. apply (N3 x X). apply in_flat_map in Y. destruct Y as [d [D Y]]. apply filter_In in D.
  apply in_flat_map. exists d. tauto.
Qed.

Lemma unique_somes key T l : unique_key key T -> (forall r, In r l -> In r T) -> NoDup l -> NoDup (somes key l).
Proof.
  intros U. induction l as [|r l IH]; intros I N; simpl; [constructor|]. inversion N as [|? ? N1 N2]; subst.
  destruct (key r) as [k|] eqn:K; simpl; [|apply IH; auto; intros; apply I; right; auto].
  constructor; [|apply IH; auto; intros; apply I; right; auto].
  intros M. apply somes_In in M. destruct M as [r' [R' E']]. apply N1. replace r with r'; auto.
  eapply U; eauto; apply I; [right|left]; auto.
Qed.
