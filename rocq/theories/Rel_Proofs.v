(** Proofs about joined rows. *)
From Coq Require Import Lia.
From Verif Require Import PyBase PyStr JoinGraph_Model JoinGraph_Spec JoinOrder_Spec Rel_Model Rel_Spec.
Local Open Scope string_scope.
Local Open Scope list_scope.
Local Open Scope nat_scope.

(** Subsequences *)
Inductive subseq {A} : list A -> list A -> Prop :=
| sub_nil : subseq [] []
| sub_skip x l m : subseq l m -> subseq l (x :: m)
| sub_keep x l m : subseq l m -> subseq (x :: l) (x :: m).
Lemma subseq_refl {A} (l : list A) : subseq l l.
Proof. induction l; [apply sub_nil|apply sub_keep; auto]. Qed.
Lemma subseq_In {A} (l m : list A) x : subseq l m -> In x l -> In x m.
Proof. induction 1; simpl; intros I; auto. destruct I; auto. Qed.
Lemma subseq_NoDup {A} (l m : list A) : subseq l m -> NoDup m -> NoDup l.
Proof.
  induction 1; intros N; auto; inversion N; subst; auto. constructor; auto.
  intros I. apply H2. eapply subseq_In; eauto.
Qed.
Lemma subseq_app {A} (a b c d : list A) : subseq a b -> subseq c d -> subseq (a ++ c) (b ++ d).
Proof. induction 1; simpl; intros; auto; [apply sub_skip|apply sub_keep]; auto. Qed.
Lemma subseq_nil {A} (l : list A) : subseq [] l.
Proof. induction l; constructor; auto. Qed.
Lemma subseq_flat_map {A B} (f g : A -> list B) l : (forall x, In x l -> subseq (f x) (g x)) -> subseq (flat_map f l) (flat_map g l).
Proof.
  induction l; simpl; intros H; [constructor|]. apply subseq_app; auto.
Qed.

Lemma NoDup_app_iff {A} (l m : list A) : NoDup (l ++ m) <-> NoDup l /\ NoDup m /\ (forall x, In x l -> ~ In x m).
Proof.
  induction l as [|a l IH]; simpl.
  - split; [intros H|intros [_ [H _]]]; auto. split; [constructor|]. split; auto.
  - rewrite !NoDup_cons_iff, IH, in_app_iff. split.
    + intros [H1 [H2 [H3 H4]]]. split; [split; auto|]. split; [auto|]. intros x [<-|X]; auto.
    + intros [[H1 H2] [H3 H4]]. split; [intros [X|X]; [auto|apply (H4 a); auto]|].
      split; [auto|]. split; [auto|]. intros x X. apply H4. auto.
Qed.
Lemma NoDup_flat_map {A B} (f : A -> list B) l :
  NoDup l -> (forall x, In x l -> NoDup (f x)) ->
  (forall x y b, In x l -> In y l -> In b (f x) -> In b (f y) -> x = y) -> NoDup (flat_map f l).
Proof.
  induction l as [|a l IH]; simpl; intros N F D; [constructor|].
  inversion N; subst. apply NoDup_app_iff. split; auto. split.
  - apply IH; auto. intros x y b X Y. apply D; auto.
  - intros b I J. apply in_flat_map in J. destruct J as [x [X Y]]. 
    assert (a = x) by (eapply D; eauto). subst. auto.
Qed.

Lemma flat_map_app {A B} (f : A -> list B) l m : flat_map f (l ++ m) = flat_map f l ++ flat_map f m.
Proof. induction l; simpl; auto. rewrite IHl, app_assoc. auto. Qed.
Lemma flat_map_flat_map {A B C} (f : A -> list B) (g : B -> list C) l :
  flat_map g (flat_map f l) = flat_map (fun x => flat_map g (f x)) l.
Proof. induction l; simpl; auto. rewrite flat_map_app, IHl. auto. Qed.
Lemma flat_map_map {A B C} (f : A -> B) (g : B -> list C) l : flat_map g (map f l) = flat_map (fun x => g (f x)) l.
Proof. induction l; simpl; auto. rewrite IHl. auto. Qed.
Lemma flat_map_single {A} (l : list A) : flat_map (fun x => [x]) l = l.
Proof. induction l; simpl; auto. rewrite IHl. auto. Qed.
Lemma flat_map_nil {A B} (l : list A) : flat_map (fun _ => @nil B) l = [].
Proof. induction l; auto. Qed.
Lemma NoDup_all_eq {A} (l : list A) : NoDup l -> (forall x y, In x l -> In y l -> x = y) -> l = [] \/ exists x, l = [x].
Proof.
  destruct l as [|a [|b l]]; intros N H; eauto. exfalso. inversion N; subst. apply H2. left. apply H; simpl; auto.
Qed.

Section Rows.
  Variable tab : string -> list nat.
  Variable on : join -> nat -> nat -> bool.
  Variable kind : join -> jkind.
  Hypothesis TND : forall v, NoDup (tab v).
  Notation matches := (matches tab on).
  Notation join_rows := (join_rows tab on kind).
  Notation joined := (joined tab on kind).
  Notation unmatched := (unmatched tab on).

  Lemma occ_app v a b : occ v (a ++ b) = occ v a ++ occ v b.
  Proof. apply flat_map_app. Qed.

  (** Rows only hold rows of tables, for the views present *)
  Definition within (present : list string) (rows : list crow) : Prop :=
    forall c v r, In c rows -> assoc v c = Some r -> In v present /\ In r (tab v).

  Lemma matches_In j c r : In r (matches j c) <-> exists u, assoc (jn_base j) c = Some u /\ In r (tab (jn_view j)) /\ on j u r = true.
  Proof.
    unfold Rel_Spec.matches. destruct (assoc (jn_base j) c) as [u|].
    - rewrite filter_In. split; [intros [A B]; exists u; auto|intros [u' [E [A B]]]; inversion E; subst; auto].
    - split; [intros []|intros [u [E _]]; discriminate].
  Qed.
  Lemma matches_NoDup j c : NoDup (matches j c).
  Proof. unfold Rel_Spec.matches. destruct (assoc _ c); [apply NoDup_filter; auto|constructor]. Qed.

  Lemma within_join j rows present : within present rows -> within (jn_view j :: present) (join_rows j rows).
  Proof.
    intros W.
    assert (I : forall c c' v r, In c rows -> In c' (inner_rows tab on j c) -> assoc v c' = Some r -> In v (jn_view j :: present) /\ In r (tab v)).
    { intros c c' v r C C' A. unfold inner_rows in C'. apply in_map_iff in C'. destruct C' as [r' [<- M]]. simpl in A.
      destruct (String.eqb_spec v (jn_view j)).
      - inversion A; subst. apply matches_In in M. destruct M as [u [_ [M _]]]. simpl; auto.
      - destruct (W c v r C A). simpl; auto. }
    assert (L : forall c v r, In c (flat_map (left_rows tab on j) rows) -> assoc v c = Some r -> In v (jn_view j :: present) /\ In r (tab v)).
    { intros c v r C A. apply in_flat_map in C. destruct C as [c0 [C0 C]]. unfold left_rows in C.
      destruct (Rel_Spec.matches tab on j c0) eqn:M.
      - destruct C as [<-|[]]. destruct (W _ _ _ C0 A). simpl; auto.
      - eapply I; eauto. }
    intros c v r C A. unfold Rel_Spec.join_rows in C. destruct (kind j).
    - eapply L; eauto.
    - apply in_flat_map in C. destruct C as [c0 [C0 C]]. eapply I; eauto.
    - apply in_app_or in C. destruct C as [C|C]; [eapply L; eauto|].
      apply in_map_iff in C. destruct C as [r' [<- C]]. simpl in A. destruct (String.eqb_spec v (jn_view j)); [|discriminate].
      inversion A; subst. unfold Rel_Spec.unmatched in C. apply filter_In in C. simpl; tauto.
  Qed.

  Lemma occ_within present rows v r : within present rows -> In r (occ v rows) -> In v present /\ In r (tab v).
  Proof.
    intros W I. unfold occ in I. apply in_flat_map in I. destruct I as [c [C I]].
    destruct (assoc v c) eqn:A; [|destruct I]. destruct I as [<-|[]]. eapply W; eauto.
  Qed.

  (** ** A view already present keeps its multiplicity when each row matches at most one *)
  Lemma at_most_one j c present rows : one_right tab on j -> within present rows -> In c rows ->
    matches j c = [] \/ exists r, matches j c = [r].
  Proof.
    intros O W C. apply NoDup_all_eq; [apply matches_NoDup|]. intros x y X Y.
    apply matches_In in X. apply matches_In in Y. destruct X as [u [A [X1 X2]]]. destruct Y as [u' [A' [Y1 Y2]]].
    rewrite A in A'. inversion A'; subst. eapply O; eauto. eapply W; eauto.
  Qed.
  Lemma occ_other j w present rows : w <> jn_view j -> one_right tab on j -> within present rows ->
    subseq (occ w (join_rows j rows)) (occ w rows).
  Proof.
    intros N O W. unfold Rel_Spec.join_rows.
    assert (IN : subseq (occ w (flat_map (inner_rows tab on j) rows)) (occ w rows)).
    { unfold occ. rewrite flat_map_flat_map. apply subseq_flat_map. intros c C. unfold inner_rows. rewrite flat_map_map.
      destruct (at_most_one j c present rows O W C) as [->|[r ->]]; simpl; [apply subseq_nil|].
      destruct (String.eqb_spec w (jn_view j)); [congruence|]. rewrite app_nil_r. apply subseq_refl. }
    assert (LE : occ w (flat_map (left_rows tab on j) rows) = occ w rows).
    { unfold occ. rewrite flat_map_flat_map. clear IN.
      assert (X : forall c, In c rows -> flat_map (fun c => match assoc w c with Some r => [r] | None => [] end) (left_rows tab on j c)
                = match assoc w c with Some r => [r] | None => [] end).
      { intros c C. unfold left_rows, inner_rows. destruct (at_most_one j c present rows O W C) as [->|[r ->]]; simpl.
        - rewrite app_nil_r. auto.
        - destruct (String.eqb_spec w (jn_view j)); [congruence|]. rewrite app_nil_r. auto. }
      clear - X. induction rows as [|c l IH]; simpl; auto. rewrite X by (left; auto). rewrite IH; auto.
      intros c' C'. apply X. right; auto. }
    destruct (kind j).
    - rewrite LE. apply subseq_refl.
    - exact IN.
    - rewrite occ_app, LE.
      assert (Z : occ w (map (fun r => [(jn_view j, r)]) (unmatched j rows)) = []).
      { unfold occ. rewrite flat_map_map. simpl. destruct (String.eqb_spec w (jn_view j)); [congruence|]. apply flat_map_nil. }
      rewrite Z, app_nil_r. apply subseq_refl.
  Qed.

  (** ** The rows of the newly joined view *)
  Lemma occ_new_matched j rows present : within present rows -> ~ In (jn_view j) present ->
    occ (jn_view j) (flat_map (inner_rows tab on j) rows) = flat_map (matches j) rows /\
    occ (jn_view j) (flat_map (left_rows tab on j) rows) = flat_map (matches j) rows.
  Proof.
    intros W N. assert (I : forall c, occ (jn_view j) (inner_rows tab on j c) = matches j c).
    { intros c. unfold occ, inner_rows. rewrite flat_map_map. simpl. rewrite String.eqb_refl. apply flat_map_single. }
    split; unfold occ; rewrite flat_map_flat_map.
    - apply flat_map_ext. intros c. apply I.
    - induction rows as [|c l IH]; simpl; auto.
      rewrite IH. 2:{ intros c' v r C'. apply W. right; auto. }
      f_equal. unfold left_rows. destruct (Rel_Spec.matches tab on j c) eqn:M; [|rewrite <- M; apply I].
      simpl. rewrite app_nil_r. destruct (assoc (jn_view j) c) eqn:A; auto. exfalso.
      apply N. eapply (W c); eauto. left; auto.
  Qed.
  Lemma flat_map_matches j rows : flat_map (matches j) rows = flat_map (fun u => filter (on j u) (tab (jn_view j))) (occ (jn_base j) rows).
  Proof.
    unfold occ. rewrite flat_map_flat_map. apply flat_map_ext. intros c. unfold Rel_Spec.matches.
    destruct (assoc (jn_base j) c); simpl; auto. rewrite app_nil_r. auto.
  Qed.
  Lemma occ_new_NoDup j rows present : within present rows -> ~ In (jn_view j) present ->
    one_left tab on j -> NoDup (occ (jn_base j) rows) -> NoDup (occ (jn_view j) (join_rows j rows)).
  Proof.
    intros W N O U.
    assert (M : NoDup (flat_map (matches j) rows)).
    { rewrite flat_map_matches. apply NoDup_flat_map; auto.
      - intros u _. apply NoDup_filter; auto.
      - intros u1 u2 r I1 I2 R1 R2. apply filter_In in R1. apply filter_In in R2.
        destruct R1 as [R1 E1]. destruct R2 as [R2 E2].
        apply (O u1 u2 r); auto; eapply occ_within; eauto. }
    destruct (occ_new_matched j rows present W N) as [A B].
    unfold Rel_Spec.join_rows. destruct (kind j).
    - rewrite B. auto.
    - rewrite A. auto.
    - rewrite occ_app, B.
      assert (Z : occ (jn_view j) (map (fun r => [(jn_view j, r)]) (unmatched j rows)) = unmatched j rows).
      { unfold occ. rewrite flat_map_map. simpl. rewrite String.eqb_refl. apply flat_map_single. }
      rewrite Z. apply NoDup_app_iff. split; auto. split; [apply NoDup_filter; auto|].
      intros r I J. unfold Rel_Spec.unmatched in J. apply filter_In in J. destruct J as [_ J].
      apply negb_true_iff in J. apply in_flat_map in I. destruct I as [c [C I]].
      assert (existsb (fun c => existsb (Nat.eqb r) (matches j c)) rows = true); [|congruence].
      apply existsb_exists. exists c. split; auto. apply existsb_exists. exists r. split; auto. apply Nat.eqb_refl.
  Qed.

  (** ** Chains of joins *)
  Lemma chain_grain g : forall js present rows final u,
    joins_from g present js final -> within present rows ->
    (forall j, In j js -> agrees tab on (jrel j) j) ->
    incl u present -> (forall v, In v u -> NoDup (occ v rows)) ->
    within final (fold_left (fun rows j => join_rows j rows) js rows) /\
    forall v, In v (grain u js) -> NoDup (occ v (fold_left (fun rows j => join_rows j rows) js rows)).
  Proof.
    induction js as [|j js IH]; intros present rows final u JF W AG IU NU; inversion JF as [|? ? ? ? J1 J2 J3 J4]; subst.
    - simpl. auto.
    - cbn [fold_left grain].
      assert (AJ : agrees tab on (jrel j) j) by (apply AG; left; auto). unfold jrel in AJ.
      set (here := existsb (String.eqb (jn_base j)) u).
      assert (HERE : here = true -> In (jn_base j) u).
      { unfold here. rewrite existsb_exists. intros [x [X E]]. apply String.eqb_eq in E. subst; auto. }
      assert (KEEP : one_right tab on j -> forall v, In v u -> NoDup (occ v (join_rows j rows))).
      { intros O v V. eapply subseq_NoDup; [|apply (NU v V)]. eapply occ_other; eauto.
        intros ->. apply J2. auto. }
      assert (NEW : one_left tab on j -> here = true -> NoDup (occ (jn_view j) (join_rows j rows))).
      { intros O H. eapply occ_new_NoDup; eauto. }
      apply (IH (jn_view j :: present) (join_rows j rows)); auto.
      + apply within_join; auto.
      + intros x X. apply AG. right; auto.
      + intros v V. destruct (e_rel (jn_edge j)).
        * right; auto.
        * destruct here; simpl in V; [destruct V as [<-|V]|]; simpl; auto.
        * destruct here; simpl in V; [destruct V as [<-|[]]|destruct V]; simpl; auto.
        * destruct V.
      + intros v V. destruct (e_rel (jn_edge j)); simpl in AJ.
        * auto.
        * destruct AJ as [A1 A2]. destruct here eqn:H; simpl in V; [destruct V as [<-|V]|]; auto.
        * destruct here eqn:H; simpl in V; [destruct V as [<-|[]]|destruct V]; auto.
        * destruct V.
  Qed.

  Lemma base_within base : within [base] (base_rows tab base).
  Proof.
    intros c v r C A. unfold base_rows in C. apply in_map_iff in C. destruct C as [x [<- X]]. simpl in A.
    destruct (String.eqb_spec v base); [|discriminate]. inversion A; subst. simpl; auto.
  Qed.
  Lemma base_occ base : occ base (base_rows tab base) = tab base.
  Proof. unfold occ, base_rows. rewrite flat_map_map. simpl. rewrite String.eqb_refl. apply flat_map_single. Qed.

  Theorem joined_grain g base js final v :
    joins_from g [base] js final -> (forall j, In j js -> agrees tab on (jrel j) j) ->
    In v (grain [base] js) -> NoDup (occ v (joined base js)).
  Proof.
    intros JF AG V. eapply (chain_grain g js [base] (base_rows tab base) final [base]); eauto.
    - apply base_within.
    - intros x X; auto.
    - intros x [<-|[]]. rewrite base_occ. auto.
  Qed.
End Rows.

(** * functional_pk against the grain *)
Lemma grain_app u a b : grain u (a ++ b) = grain (grain u a) b.
Proof. revert u. induction a as [|j a IH]; intros u; simpl; auto. Qed.

Lemma derive_grain js : forall prev last u v,
  chained u js -> In last u -> derive_pk_aux prev last js = Some v -> In v (grain u js).
Proof.
  induction js as [|j js IH]; simpl; intros prev last u v C L D; [inversion D; subst; auto|].
  destruct C as [C1 C2]. unfold jrel in D. destruct (e_rel (jn_edge j)); try discriminate.
  - eapply IH; eauto.
  - eapply IH; eauto. destruct (existsb _ u); simpl; auto.
  - assert (E : existsb (String.eqb (jn_base j)) u = true).
    { apply existsb_exists. exists (jn_base j). split; auto. apply String.eqb_refl. }
    rewrite E in *. destruct prev as [[| | |]|]; try discriminate; eapply IH; eauto; left; auto.
Qed.

Lemma all_one_grain js : forall u, forallb (fun j => rel_eqb (jrel j) M2O || rel_eqb (jrel j) O2O) js = true -> incl u (grain u js).
Proof.
  induction js as [|j js IH]; simpl; intros u H; [intros x X; auto|].
  apply andb_true_iff in H. destruct H as [A B]. unfold jrel in A.
  destruct (e_rel (jn_edge j)); simpl in A; try discriminate; [apply IH; auto|].
  intros x X. apply IH; auto. destruct (existsb _ u); simpl; auto.
Qed.

Lemma functional_pk_grain base js v : chained [base] js -> functional_pk base js = Some v -> In v (grain [base] js).
Proof.
  intros C F. unfold functional_pk in F. destruct js as [|j js]; [inversion F; simpl; auto|].
  set (l := j :: js) in *.
  destruct (existsb _ l); [discriminate|]. destruct (forallb _ l) eqn:A.
  - inversion F; subst. apply all_one_grain; simpl; auto.
  - eapply derive_grain; eauto. left; auto.
Qed.
