(** Specification and property theorems: C24. *)
From Coq Require Import QArith Lqa.
From Verif Require Import PyBase PyStr Tier_Model.
Local Open Scope string_scope.
Local Open Scope list_scope.
Local Open Scope nat_scope.

Section Tier.
  Variable num : string -> Q.                     (* the number a tier's text stands for *)

  (** SQL: a comparison with NULL is not true; CASE takes the first true WHEN *)
  Definition holds (v : option Q) (c : tcond) : bool :=
    match v with
    | None => false
    | Some x =>
        let lt t := negb (Qle_bool (num t) x) in let ge t := Qle_bool (num t) x in
        match c with CLt t => lt t | CGe t => ge t | CBetween a b => ge a && lt b end
    end.
  Fixpoint first_true (v : option Q) (l : list (tcond * string)) (e : string) : string :=
    match l with [] => e | (c, s) :: r => if holds v c then s else first_true v r e end.
  Definition bucket_of (c : tcase) (v : option Q) : string := first_true v (tc_whens c) (tc_else c).

  (** The intervals: number i of a list of n tiers runs from tier i-1 (none for 0) up to tier i (none for n) *)
  Definition lower (tiers : list string) (i : nat) : option string := match i with O => None | S j => nth_error tiers j end.
  Definition upper (tiers : list string) (i : nat) : option string := nth_error tiers i.
  Definition inside (tiers : list string) (i : nat) (x : Q) : Prop :=
    (match lower tiers i with Some a => (num a <= x)%Q | None => True end) /\
    (match upper tiers i with Some b => (x < num b)%Q | None => True end).
  Definition label (tiers : list string) (i : nat) : string :=
    match lower tiers i, upper tiers i with
    | None, Some b => "Below " ++ b
    | Some a, Some b => "[" ++ a ++ "," ++ b ++ ")"
    | Some a, None => "[" ++ a ++ ",inf)"
    | None, None => ""
    end%string.
  Fixpoint increasing (tiers : list string) : Prop :=
    match tiers with
    | a :: ((b :: _) as r) => (num a < num b)%Q /\ increasing r
    | _ => True
    end.
  (** Printed numbers contain no comma *)
  Definition plain_text (t : string) : Prop := contains "," t = false.

  Lemma lt_iff t (x : Q) : negb (Qle_bool (num t) x) = true <-> (x < num t)%Q.
  Proof.
    rewrite negb_true_iff. destruct (Qle_bool (num t) x) eqn:E; split; intros H; try discriminate; try reflexivity.
    - apply Qle_bool_iff in E. lra.
    - apply Qnot_le_lt. intros L. apply Qle_bool_iff in L. congruence.
  Qed.
  Lemma inc_tail a r : increasing (a :: r) -> increasing r.
  Proof. destruct r as [|b r]; simpl; tauto. Qed.
  Lemma inc_head a r : increasing (a :: r) -> forall t, In t r -> (num a < num t)%Q.
  Proof.
    revert a. induction r as [|b r IH]; intros a I t T; [destruct T|]. destruct I as [L I].
    destruct T as [<-|T]; [exact L|]. pose proof (IH b I t T). lra.
  Qed.
  Lemma inc_nth tiers : increasing tiers -> forall i j a b, nth_error tiers i = Some a -> nth_error tiers j = Some b -> i < j -> (num a < num b)%Q.
  Proof.
    induction tiers as [|t r IH]; intros I i j a b A B L; [destruct i; discriminate|].
    destruct j as [|j]; [lia|]. destruct i as [|i].
    - injection A as <-. apply (inc_head t r I). apply (nth_error_In r j). exact B.
    - apply (IH (inc_tail t r I) i j); [exact A | exact B | lia].
  Qed.
  Lemma inc_distinct tiers : increasing tiers -> forall i j a, nth_error tiers i = Some a -> nth_error tiers j = Some a -> i = j.
  Proof.
    intros I i j a A B. destruct (Nat.lt_trichotomy i j) as [L|[E|L]]; [|exact E|].
    - pose proof (inc_nth tiers I i j a a A B L). lra.
    - pose proof (inc_nth tiers I j i a a B A L). lra.
  Qed.

  (** Which WHEN a value at or above the first tier takes *)
  Lemma bucket_whens_spec tiers : forall t0 x e, increasing (t0 :: tiers) -> (num t0 <= x)%Q ->
    exists i, S i <= S (List.length tiers) /\ inside (t0 :: tiers) (S i) x /\
      first_true (Some x) (bucket_whens (t0 :: tiers) ++ [(CGe (List.last (t0 :: tiers) t0), ("[" ++ List.last (t0 :: tiers) t0 ++ ",inf)")%string)]) e = label (t0 :: tiers) (S i).
  Proof.
    induction tiers as [|b r IH]; intros t0 x e I L.
    - exists 0. split; [lia|]. split; [split; [exact L | exact Logic.I]|]. simpl. apply Qle_bool_iff in L. rewrite L. reflexivity.
    - cbn [bucket_whens app first_true]. destruct (holds (Some x) (CBetween t0 b)) eqn:H.
      + exists 0. split; [simpl; lia|]. split; [|reflexivity]. split; [exact L|]. simpl in H. apply andb_true_iff in H. destruct H as [_ H]. apply lt_iff in H. exact H.
      + assert (B : (num b <= x)%Q).
        { simpl in H. apply andb_false_iff in H. destruct H as [H|H].
          - apply Qle_bool_iff in L. congruence.
          - apply negb_false_iff in H. apply Qle_bool_iff. exact H. }
        destruct (IH b x e (inc_tail _ _ I) B) as [i [Li [Ii E]]].
        assert (LE : List.last (t0 :: b :: r) t0 = List.last (b :: r) b).
        { change (List.last (t0 :: b :: r) t0) with (List.last (b :: r) t0). clear. revert b. induction r as [|c r IH]; intros b; [reflexivity|].
          change (List.last (b :: c :: r) t0) with (List.last (c :: r) t0). change (List.last (b :: c :: r) b) with (List.last (c :: r) b).
          clear IH. revert c. induction r as [|d r IH]; intros c; [reflexivity|]. apply (IH d). }
        exists (S i). split; [simpl in *; lia|]. split; [exact Ii|]. rewrite LE. exact E.
  Qed.

  (** Every number lies in exactly one interval, and CASE gives that interval's label *)
  Theorem C24_exactly_one tiers : tiers <> [] -> increasing tiers ->
    exists c, tier_sql tiers = Ok c /\
      forall x, exists i, i <= List.length tiers /\ inside tiers i x /\ bucket_of c (Some x) = label tiers i /\
        forall j, j <= List.length tiers -> inside tiers j x -> j = i.
  Proof.
    intros NE I. destruct tiers as [|t0 r]; [congruence|]. eexists. split; [reflexivity|]. intros x.
    assert (U : forall i j, i <= List.length (t0 :: r) -> j <= List.length (t0 :: r) -> inside (t0 :: r) i x -> inside (t0 :: r) j x -> i < j -> False).
    { intros i j Li Lj [_ Ui] [Lo _] L. unfold upper in Ui. unfold lower in Lo. destruct j as [|j]; [lia|].
      destruct (nth_error (t0 :: r) i) as [a|] eqn:A; [|apply nth_error_None in A; lia].
      destruct (nth_error (t0 :: r) j) as [b|] eqn:B; [|apply nth_error_None in B; lia].
      destruct (Nat.eq_dec i j) as [->|N]; [assert (a = b) by congruence; subst b; lra|].
      pose proof (inc_nth _ I i j a b A B ltac:(lia)). lra. }
    assert (H : exists i, i <= List.length (t0 :: r) /\ inside (t0 :: r) i x /\
              bucket_of (TCase ((CLt t0, ("Below " ++ t0)%string) :: bucket_whens (t0 :: r) ++ [(CGe (List.last (t0 :: r) t0), ("[" ++ List.last (t0 :: r) t0 ++ ",inf)")%string)]) "Unknown") (Some x) = label (t0 :: r) i).
    { unfold bucket_of. cbn [tc_whens tc_else first_true]. destruct (holds (Some x) (CLt t0)) eqn:H0.
      - exists 0. split; [lia|]. split; [|reflexivity]. split; [exact Logic.I|]. simpl. apply lt_iff. exact H0.
      - simpl in H0. apply negb_false_iff in H0. apply Qle_bool_iff in H0.
        destruct (bucket_whens_spec r t0 x "Unknown" I H0) as [i [Li [Ii E]]]. exists (S i). split; [simpl in *; lia|]. split; [exact Ii | exact E]. }
    destruct H as [i [Li [Ii E]]]. exists i. split; [exact Li|]. split; [exact Ii|]. split; [exact E|].
    intros j Lj Ij. destruct (Nat.lt_trichotomy i j) as [L|[<-|L]]; [exfalso; eapply (U i j); eassumption | reflexivity | exfalso; eapply (U j i); eassumption].
  Qed.

  Theorem C24_null tiers c : tier_sql tiers = Ok c -> bucket_of c None = "Unknown".
  Proof.
    intros E. destruct tiers as [|t0 r]; [discriminate E|]. injection E as <-. unfold bucket_of. cbn [tc_whens tc_else].
    assert (H : forall l e, first_true None l e = e) by (induction l as [|[c s] l IH]; intros e; [reflexivity | apply IH]). apply H.
  Qed.

  (** Labels of different intervals differ, and none is 'Unknown' *)
  Lemma comma_split a b c d : plain_text a -> plain_text c -> (a ++ "," ++ b)%string = (c ++ "," ++ d)%string -> a = c /\ b = d.
  Proof.
    unfold plain_text. revert c. induction a as [|h a IH]; intros [|k c] A C E.
    - injection E as E. auto.
    - simpl in E. injection E as E1 E2. subst k. simpl in C. discriminate C.
    - simpl in E. injection E as E1 E2. subst h. simpl in A. discriminate A.
    - change (String h a ++ "," ++ b)%string with (String h (a ++ "," ++ b))%string in E.
      change (String k c ++ "," ++ d)%string with (String k (c ++ "," ++ d))%string in E. injection E as E1 E2. subst k.
      cbn [contains] in A, C. apply orb_false_iff in A. apply orb_false_iff in C.
      destruct (IH c (proj2 A) (proj2 C) E2) as [-> ->]. auto.
  Qed.
  Lemma append_eq_suffix (a b s : string) : (a ++ s)%string = (b ++ s)%string -> a = b.
  Proof.
    revert b. induction a as [|h a IH]; intros [|k b] E; [reflexivity | | |].
    - exfalso. apply (f_equal String.length) in E. simpl in E. rewrite append_length in E. lia.
    - exfalso. apply (f_equal String.length) in E. simpl in E. rewrite append_length in E. lia.
    - simpl in E. injection E as -> E. f_equal. apply IH. exact E.
  Qed.
  Theorem C24_labels_distinct tiers : tiers <> [] -> increasing tiers -> (forall t, In t tiers -> plain_text t) ->
    (forall i j, i <= List.length tiers -> j <= List.length tiers -> label tiers i = label tiers j -> i = j) /\
    (forall i, i <= List.length tiers -> label tiers i <> "Unknown").
  Proof.
    intros NE I P.
    assert (F : forall i a, nth_error tiers i = Some a -> plain_text a) by (intros i a E; apply P; eapply nth_error_In; exact E).
    assert (Z : exists t0, nth_error tiers 0 = Some t0) by (destruct tiers as [|t0 r]; [congruence | exists t0; reflexivity]). destruct Z as [t0 Z].
    assert (B : forall i, S i <= List.length tiers -> exists a rest, nth_error tiers i = Some a /\ label tiers (S i) = ("[" ++ a ++ "," ++ rest)%string).
    { intros i L. destruct (nth_error tiers i) as [a|] eqn:A; [|apply nth_error_None in A; lia].
      unfold label, lower, upper. rewrite A. destruct (nth_error tiers (S i)) as [b|]; [exists a, (b ++ ")")%string | exists a, "inf)"]; auto. }
    split.
    - intros [|i] [|j] Li Lj E; [reflexivity | | |].
      + exfalso. destruct (B j Lj) as [a [rest [_ Eb]]]. rewrite Eb in E. unfold label, lower, upper in E. rewrite Z in E. discriminate E.
      + exfalso. destruct (B i Li) as [a [rest [_ Eb]]]. rewrite Eb in E. unfold label, lower, upper in E. rewrite Z in E. discriminate E.
      + destruct (B i Li) as [a [ra [Ai Ea]]]. destruct (B j Lj) as [b [rb [Aj Eb]]]. rewrite Ea, Eb in E. injection E as E.
        destruct (comma_split _ _ _ _ (F i a Ai) (F j b Aj) E) as [<- _]. f_equal. eapply inc_distinct; eassumption.
    - intros [|i] L E.
      + unfold label, lower, upper in E. rewrite Z in E. discriminate E.
      + destruct (B i L) as [a [rest [_ Eb]]]. rewrite Eb in E. discriminate E.
  Qed.
End Tier.
Print Assumptions C24_exactly_one.
Print Assumptions C24_null.
Print Assumptions C24_labels_distinct.

(** Case: tiers 0, 10, 20 *)
Definition ex_num (t : string) : Q := (if String.eqb t "10" then 10 else if String.eqb t "20" then 20 else 0)%Q.
Example C24_case :
  increasing ex_num ["0"; "10"; "20"] /\ (forall t, In t ["0"; "10"; "20"] -> plain_text t) /\
  map (label ["0"; "10"; "20"]) [0; 1; 2; 3] = ["Below 0"; "[0,10)"; "[10,20)"; "[20,inf)"] /\
  (forall c, tier_sql ["0"; "10"; "20"] = Ok c -> bucket_of ex_num c (Some 10%Q) = "[10,20)").
Proof.
  split; [repeat split; reflexivity|]. split; [intros t [<-|[<-|[<-|[]]]]; reflexivity|]. split; [reflexivity|].
  intros c E. injection E as <-. reflexivity.
Qed.
(** An empty list of tiers raises IndexError *)
Theorem C24_empty : tier_sql [] = Err IndexError. Proof. reflexivity. Qed.
Print Assumptions C24_empty.
(** Without the order, a value below the first tier but above a later one is called "Below" the first:
    tiers 10, 5 and value 7 *)
Theorem C24_unsorted_refuted :
  exists num tiers c x, tier_sql tiers = Ok c /\ bucket_of num c (Some x) = label tiers 0 /\
    exists i, 0 < i /\ inside num tiers i x.
Proof.
  exists (fun t => if String.eqb t "10" then 10%Q else 5%Q), ["10"; "5"]. eexists. exists 7%Q. split; [reflexivity|]. split; [reflexivity|].
  exists 2. split; [lia|]. split; [vm_compute; discriminate | exact I].
Qed.
Print Assumptions C24_unsorted_refuted.
