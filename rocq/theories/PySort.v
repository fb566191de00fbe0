(** Python's sorted(): a stable sort by a total preorder; string order by code points; nat_str is
    injective. *)
From Verif Require Import PyBase PyStr.
Local Open Scope string_scope.
Local Open Scope list_scope.
Local Open Scope nat_scope.

Section Sort.
  Context {A : Type}.
  Variable leb : A -> A -> bool.

  (** Insertion keeping the order of equal elements (the new element comes before the later ones). *)
  Fixpoint insert (x : A) (l : list A) : list A :=
    match l with
    | [] => [x]
    | y :: r => if leb x y then x :: l else y :: insert x r
    end.
  Definition isort (l : list A) : list A := fold_right insert [] l.

  Lemma insert_perm x l : Permutation (insert x l) (x :: l).
  Proof.
    induction l as [|y r IH]; simpl; [reflexivity|]. destruct (leb x y); [reflexivity|].
    rewrite IH. apply perm_swap.
  Qed.
  Lemma isort_perm l : Permutation (isort l) l.
  Proof. induction l as [|x r IH]; simpl; [reflexivity|]. rewrite insert_perm. constructor. exact IH. Qed.
  Lemma isort_In l x : In x (isort l) <-> In x l.
  Proof. split; apply Permutation_in; [|symmetry]; apply isort_perm. Qed.
  Lemma isort_length l : List.length (isort l) = List.length l.
  Proof. apply Permutation_length, isort_perm. Qed.
  Lemma isort_NoDup l : NoDup (isort l) <-> NoDup l.
  Proof. split; apply Permutation_NoDup; [|symmetry]; apply isort_perm. Qed.

  Inductive sorted : list A -> Prop :=
  | s_nil : sorted []
  | s_cons x l : (forall y, In y l -> leb x y = true) -> sorted l -> sorted (x :: l).

  Hypothesis total : forall x y, leb x y = true \/ leb y x = true.
  Hypothesis trans : forall x y z, leb x y = true -> leb y z = true -> leb x z = true.

  Lemma insert_sorted x l : sorted l -> sorted (insert x l).
  Proof.
    induction 1 as [|y l Hy Hl IH]; simpl; [constructor; [intros ? []|constructor]|].
    destruct (leb x y) eqn:E.
    - constructor; [|constructor; assumption]. intros z [<-|Hz]; [exact E|]. eapply trans; [exact E|auto].
    - constructor; [|exact IH]. intros z Hz. apply (Permutation_in z (insert_perm x l)) in Hz.
      destruct Hz as [<-|Hz]; [|auto]. destruct (total x y); congruence.
  Qed.
  Lemma isort_sorted l : sorted (isort l).
  Proof. induction l as [|x r IH]; simpl; [constructor|]. apply insert_sorted, IH. Qed.

  Lemma sorted_perm_eq l m :
    (forall x y, In x l -> In y l -> leb x y = true -> leb y x = true -> x = y) ->
    sorted l -> sorted m -> Permutation l m -> l = m.
  Proof.
    intros Hanti Hl. revert m Hanti. induction Hl as [|x l Hx Hl IH]; intros m Hanti Hm HP.
    - apply Permutation_nil in HP. congruence.
    - destruct Hm as [|y m Hy Hm]; [symmetry in HP; apply Permutation_nil in HP; discriminate|].
      assert (x = y).
      { assert (K1 : In y (x :: l)) by (apply (Permutation_in y (Permutation_sym HP)); left; reflexivity).
        assert (K2 : In x (y :: m)) by (apply (Permutation_in x HP); left; reflexivity).
        destruct K1 as [K1|K1]; [exact K1|]. destruct K2 as [K2|K2]; [symmetry; exact K2|].
        apply Hanti; [left; reflexivity|right; exact K1| |]; auto. }
      subst y. f_equal. apply IH; auto.
      + intros a b Ha Hb. apply Hanti; right; assumption.
      + exact (Permutation_cons_inv HP).
  Qed.

  Lemma isort_perm_eq l m :
    (forall x y, In x l -> In y l -> leb x y = true -> leb y x = true -> x = y) ->
    Permutation l m -> isort l = isort m.
  Proof.
    intros Hanti HP. apply sorted_perm_eq; try apply isort_sorted.
    - intros x y Hx Hy. apply Hanti; apply isort_In; assumption.
    - rewrite !isort_perm. exact HP.
  Qed.

  Lemma isort_id l : sorted l -> isort l = l.
  Proof.
    induction 1 as [|x l Hx Hl IH]; simpl; [reflexivity|]. rewrite IH.
    destruct l as [|y r]; simpl; [reflexivity|]. rewrite (Hx y (or_introl eq_refl)). reflexivity.
  Qed.
End Sort.

(** ** String order *)
Lemma ascii_compare_lt_trans a b c : Ascii.compare a b = Lt -> Ascii.compare b c = Lt -> Ascii.compare a c = Lt.
Proof. unfold Ascii.compare. rewrite !N.compare_lt_iff. lia. Qed.
Lemma ascii_compare_refl a : Ascii.compare a a = Eq.
Proof. unfold Ascii.compare. apply N.compare_refl. Qed.
Lemma str_compare_refl s : String.compare s s = Eq.
Proof. induction s as [|c s IH]; simpl; [reflexivity|]. rewrite ascii_compare_refl. exact IH. Qed.

Lemma str_compare_le_trans a : forall b c,
  String.compare a b <> Gt -> String.compare b c <> Gt -> String.compare a c <> Gt.
Proof.
  induction a as [|x a IH]; intros b c.
  - destruct c; simpl; congruence.
  - destruct b as [|y b]; simpl; [congruence|]. destruct c as [|z c]; simpl; [congruence|].
    destruct (Ascii.compare x y) eqn:E1; destruct (Ascii.compare y z) eqn:E2; try congruence.
    + apply Ascii.compare_eq_iff in E1. apply Ascii.compare_eq_iff in E2. subst. rewrite ascii_compare_refl. apply IH.
    + apply Ascii.compare_eq_iff in E1. subst. rewrite E2. congruence.
    + apply Ascii.compare_eq_iff in E2. subst. rewrite E1. congruence.
    + rewrite (ascii_compare_lt_trans _ _ _ E1 E2). congruence.
Qed.

Lemma str_leb_spec a b : String.leb a b = true <-> String.compare a b <> Gt.
Proof. unfold String.leb. destruct (String.compare a b); split; congruence. Qed.
Lemma str_leb_trans a b c : String.leb a b = true -> String.leb b c = true -> String.leb a c = true.
Proof. rewrite !str_leb_spec. apply str_compare_le_trans. Qed.
Lemma str_leb_refl a : String.leb a a = true.
Proof. unfold String.leb. rewrite str_compare_refl. reflexivity. Qed.

(** sorted() of strings *)
Definition sort_str (l : list string) : list string := isort String.leb l.
Lemma sort_str_perm_eq l m : Permutation l m -> sort_str l = sort_str m.
Proof.
  apply isort_perm_eq; [apply String.leb_total|apply str_leb_trans|]. intros x y _ _. apply String.leb_antisym.
Qed.
Lemma sort_str_In l x : In x (sort_str l) <-> In x l.
Proof. apply isort_In. Qed.

(** ** nat_str is injective *)
Fixpoint digits_val (acc : nat) (s : string) : nat :=
  match s with
  | EmptyString => acc
  | String c r => digits_val (10 * acc + (nat_of_ascii c - 48)) r
  end.

Lemma digits_val_app a acc b : digits_val acc (a ++ b) = digits_val (digits_val acc a) b.
Proof. revert acc; induction a as [|c a IH]; simpl; intros acc; [reflexivity|apply IH]. Qed.

Lemma nat_of_digit d : d < 10 -> nat_of_ascii (digit d) = 48 + d.
Proof. intros H. unfold digit. apply nat_ascii_embedding. lia. Qed.

Lemma nat_str_fuel_val f : forall n acc, n < f -> digits_val 0 (nat_str_fuel f n acc) = digits_val n acc.
Proof.
  induction f as [|f IH]; intros n acc Hn; [lia|]. cbn [nat_str_fuel].
  assert (Hm : n mod 10 < 10) by (apply Nat.mod_upper_bound; lia).
  destruct (n <? 10) eqn:E.
  - cbn [digits_val]. rewrite nat_of_digit by exact Hm. apply Nat.ltb_lt in E.
    rewrite Nat.mod_small by exact E. f_equal. lia.
  - apply Nat.ltb_ge in E. rewrite IH.
    + cbn [digits_val]. rewrite nat_of_digit by exact Hm. f_equal.
      pose proof (Nat.div_mod n 10 ltac:(lia)). lia.
    + pose proof (Nat.div_lt n 10 ltac:(lia) ltac:(lia)). lia.
Qed.
Lemma nat_str_val n : digits_val 0 (nat_str n) = n.
Proof. unfold nat_str. rewrite nat_str_fuel_val by lia. reflexivity. Qed.
Lemma nat_str_inj n m : nat_str n = nat_str m -> n = m.
Proof. intros H. rewrite <- (nat_str_val n), <- (nat_str_val m), H. reflexivity. Qed.
