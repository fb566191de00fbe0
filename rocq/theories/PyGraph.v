(** Reachability in a finite directed graph, computed by saturation, and its correctness. *)
From Verif Require Import PyBase PyStr.
Local Open Scope string_scope.
Local Open Scope list_scope.
Local Open Scope nat_scope.

Section Reach.
  Variable nodes : list string.
  Variable succ : string -> list string.

  (** Nodes outside [seen] with a predecessor in [seen], each once. *)
  Definition frontier (seen : list string) : list string :=
    dedup (filter (fun y => negb (mem y seen)) (flat_map succ seen)).

  Fixpoint closure (fuel : nat) (seen : list string) : list string :=
    match fuel with
    | O => seen
    | S f => match frontier seen with
             | [] => seen
             | new => closure f (seen ++ new)
             end
    end.
  Definition reachable_from (starts : list string) : list string := closure (List.length nodes) (dedup starts).

  (** [path x y]: zero or more edges. *)
  Inductive path : string -> string -> Prop :=
  | path_refl x : path x x
  | path_step x y z : In y (succ x) -> path y z -> path x z.

  Lemma path_trans x y z : path x y -> path y z -> path x z.
  Proof. induction 1 as [|a b c H _ IH]; intros K; [exact K|]. econstructor; [exact H|auto]. Qed.
  Lemma path_snoc x y z : path x y -> In z (succ y) -> path x z.
  Proof. intros H K. eapply path_trans; [exact H|]. econstructor; [exact K|constructor]. Qed.

  Hypothesis closed : forall x y, In x nodes -> In y (succ x) -> In y nodes.

  Lemma frontier_In seen y : In y (frontier seen) <-> ~ In y seen /\ exists x, In x seen /\ In y (succ x).
  Proof.
    unfold frontier, dedup, dedup_by.
    assert (E := dedup_by_aux_keys (fun y => y) [] (filter (fun y => negb (mem y seen)) (flat_map succ seen)) y).
    rewrite !map_id in E. rewrite E, filter_In, negb_true_iff, mem_false, in_flat_map. simpl. tauto.
  Qed.
  Lemma frontier_NoDup seen : NoDup (frontier seen).
  Proof. unfold frontier, dedup, dedup_by. rewrite <- (map_id (dedup_by_aux _ _ _)). apply dedup_by_aux_NoDup. Qed.

  Lemma closure_incl fuel : forall seen x, In x seen -> In x (closure fuel seen).
  Proof.
    induction fuel as [|f IH]; simpl; intros seen x H; [exact H|].
    destruct (frontier seen); [exact H|]. apply IH. apply in_or_app. left; exact H.
  Qed.

  Lemma closure_sound fuel : forall seen x, In x (closure fuel seen) -> exists s, In s seen /\ path s x.
  Proof.
    induction fuel as [|f IH]; simpl; intros seen x H; [exists x; split; [exact H|constructor]|].
    destruct (frontier seen) as [|n0 new] eqn:E; [exists x; split; [exact H|constructor]|].
    destruct (IH _ _ H) as (s & Hs & Hp). apply in_app_or in Hs. destruct Hs as [Hs|Hs]; [eauto|].
    rewrite <- E in Hs. apply frontier_In in Hs. destruct Hs as (_ & y & Hy & Hys).
    exists y. split; [exact Hy|]. econstructor; [exact Hys|exact Hp].
  Qed.

  Lemma closure_NoDup fuel : forall seen, NoDup seen -> NoDup (closure fuel seen).
  Proof.
    induction fuel as [|f IH]; simpl; intros seen H; [exact H|].
    destruct (frontier seen) as [|n0 new] eqn:E; [exact H|]. apply IH. rewrite <- E.
    assert (K := frontier_NoDup seen). assert (D : forall x, In x seen -> ~ In x (frontier seen)).
    { intros x Hx Hf. apply frontier_In in Hf. tauto. }
    clear E IH. induction H as [|a l Ha Hl IHl]; simpl; [exact K|]. 
    revert K D. generalize (frontier (a :: l)) as fr. intros fr K D. constructor.
    - intros Hin. apply in_app_or in Hin. destruct Hin as [Hin|Hin]; [tauto|]. apply (D a); [left; reflexivity|exact Hin].
    - clear IHl. induction Hl as [|b m Hb Hm IHm]; simpl; [exact K|]. constructor.
      + intros Hin. apply in_app_or in Hin. destruct Hin as [Hin|Hin]; [tauto|].
        apply (D b); [right; left; reflexivity|exact Hin].
      + apply IHm; [simpl in Ha; tauto|]. intros x [Hx|Hx]; apply D; [left; exact Hx|right; right; exact Hx].
  Qed.

  Lemma closure_closed fuel : forall seen,
    NoDup seen -> incl seen nodes -> List.length nodes <= fuel + List.length seen ->
    forall x y, In x (closure fuel seen) -> In y (succ x) -> In y (closure fuel seen).
  Proof.
    induction fuel as [|f IH]; simpl; intros seen Hn Hi Hl x y Hx Hy.
    - assert (Hall : incl nodes seen).
      { apply NoDup_length_incl; [exact Hn|lia|exact Hi]. }
      apply Hall. apply (closed x); [apply Hi; exact Hx|exact Hy].
    - destruct (frontier seen) as [|n0 new] eqn:E.
      + destruct (in_dec string_dec y seen) as [H|H]; [exact H|exfalso].
        assert (K : In y (frontier seen)) by (apply frontier_In; eauto). rewrite E in K. destruct K.
      + apply (IH (seen ++ n0 :: new)) with (x := x); auto.
        * assert (K := closure_NoDup 1 seen Hn). simpl in K. rewrite E in K. exact K.
        * intros z Hz. apply in_app_or in Hz. destruct Hz as [Hz|Hz]; [auto|]. rewrite <- E in Hz.
          apply frontier_In in Hz. destruct Hz as (_ & w & Hw & Hwz). apply (closed w); auto.
        * rewrite app_length. simpl. lia.
  Qed.

  Lemma dedup_In l x : In x (dedup l) <-> In x l.
  Proof.
    unfold dedup, dedup_by. assert (E := dedup_by_aux_keys (fun y => y) [] l x). rewrite !map_id in E. rewrite E.
    simpl. tauto.
  Qed.
  Lemma dedup_NoDup l : NoDup (dedup l).
  Proof. unfold dedup, dedup_by. rewrite <- (map_id (dedup_by_aux _ _ _)). apply dedup_by_aux_NoDup. Qed.

  Theorem reachable_from_spec starts x :
    incl starts nodes ->
    (In x (reachable_from starts) <-> exists s, In s starts /\ path s x).
  Proof.
    intros Hi. unfold reachable_from. split.
    - intros H. destruct (closure_sound _ _ _ H) as (s & Hs & Hp). rewrite dedup_In in Hs. exists s. split; assumption.
    - intros (s & Hs & Hp). assert (K : In s (closure (List.length nodes) (dedup starts))).
      { apply closure_incl. apply dedup_In. exact Hs. }
      clear Hs. induction Hp as [|a b c Hab _ IH]; [exact K|]. apply IH.
      apply closure_closed with (x := a); auto.
      + apply dedup_NoDup.
      + intros z Hz. rewrite dedup_In in Hz. auto.
      + lia.
  Qed.
  Lemma reachable_from_NoDup starts : NoDup (reachable_from starts).
  Proof. apply closure_NoDup, dedup_NoDup. Qed.
End Reach.
