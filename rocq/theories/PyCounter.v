(** collections.Counter(l).most_common(): the distinct elements in first-occurrence order with their number of
    occurrences, sorted by decreasing count; sorted(reverse=True) keeps the order of equal counts. *)
From Coq Require Import List Arith Bool Lia.
From Verif Require Import PyBase PySort.
Import ListNotations.
Local Open Scope list_scope.
Local Open Scope nat_scope.

Section Counter.
  Context {A : Type}.
  Variable eqb : A -> A -> bool.
  Hypothesis eqb_spec : forall x y, reflect (x = y) (eqb x y).

  Definition occ (x : A) (l : list A) : nat := List.length (filter (eqb x) l).
  Fixpoint firsts (seen l : list A) : list A :=
    match l with
    | [] => []
    | x :: r => if existsb (eqb x) seen then firsts seen r else x :: firsts (x :: seen) r
    end.
  Definition more (a b : A * nat) : bool := snd b <=? snd a.
  Definition most_common (l : list A) : list (A * nat) := isort more (map (fun x => (x, occ x l)) (firsts [] l)).

  Lemma existsb_eqb x l : existsb (eqb x) l = true <-> In x l.
  Proof.
    rewrite existsb_exists. split; [intros [y [I E]]; destruct (eqb_spec x y); congruence|]. intros I. exists x. split; auto. destruct (eqb_spec x x); congruence.
  Qed.
  Lemma firsts_In l seen x : In x (firsts seen l) <-> In x l /\ ~ In x seen.
  Proof.
    revert seen. induction l as [|y l IH]; intros seen; cbn [firsts]; [firstorder|]. destruct (existsb (eqb y) seen) eqn:E.
    - apply existsb_eqb in E. rewrite IH. cbn [In]. intuition congruence.
    - assert (N : ~ In y seen) by (rewrite <- existsb_eqb; congruence). cbn [In]. rewrite IH. cbn [In]. destruct (eqb_spec y x) as [->|D]; intuition congruence.
  Qed.
  Lemma firsts_NoDup l seen : NoDup (firsts seen l).
  Proof.
    revert seen. induction l as [|y l IH]; intros seen; cbn [firsts]; [constructor|]. destruct (existsb (eqb y) seen); auto. constructor; auto. rewrite firsts_In. cbn [In]. tauto.
  Qed.
  Lemma occ_pos x l : In x l <-> 1 <= occ x l.
  Proof.
    unfold occ. induction l as [|y l IH]; cbn [filter In]; [cbn; lia|]. destruct (eqb_spec x y) as [->|D]; cbn [List.length]; [intuition lia|]. rewrite <- IH. intuition congruence.
  Qed.
  Lemma most_common_In l x n : In (x, n) (most_common l) <-> In x l /\ n = occ x l.
  Proof.
    unfold most_common. rewrite isort_In, in_map_iff. split.
    - intros [y [E I]]. injection E as <- <-. apply firsts_In in I. tauto.
    - intros [I ->]. exists x. split; auto. apply firsts_In. auto.
  Qed.
  Lemma most_common_NoDup l : NoDup (map fst (most_common l)).
  Proof.
    unfold most_common. apply (Permutation.Permutation_NoDup (l := map fst (map (fun x => (x, occ x l)) (firsts [] l)))).
    - apply Permutation.Permutation_map, Permutation.Permutation_sym, isort_perm.
    - rewrite map_map. cbn [fst]. rewrite map_id. apply firsts_NoDup.
  Qed.
  Lemma most_common_sorted l : sorted more (most_common l).
  Proof.
    apply isort_sorted; unfold more.
    - intros x y. rewrite !Nat.leb_le. lia.
    - intros x y z. rewrite !Nat.leb_le. lia.
  Qed.
End Counter.
