(** Reference implementations of the two networkx functions, meeting the contracts of
    JoinOrder_Spec.v for every graph: the contracts are satisfiable, and the examples compute. *)
From Coq Require Import Lia.
From Verif Require Import PyBase PyStr PySort JoinGraph_Model JoinGraph_Spec JoinOrder_Model JoinOrder_Spec JoinOrder_Proofs.
Local Open Scope string_scope.
Local Open Scope list_scope.
Local Open Scope nat_scope.

(** Kahn's algorithm on the line graph *)
Fixpoint remove_one (e : vpair) (es : list vpair) : list vpair :=
  match es with
  | [] => []
  | x :: r => if pair_eqb e x then r else x :: remove_one e r
  end.
Definition free (es : list vpair) (e : vpair) : bool := negb (existsb (fun e' => String.eqb (snd e') (fst e)) es).
Fixpoint kahn (fuel : nat) (es : list vpair) : option (list vpair) :=
  match fuel with
  | O => Some []
  | S f => match es with
           | [] => Some []
           | _ => match find (free es) es with
                  | None => None
                  | Some e => match kahn f (remove_one e es) with Some l => Some (e :: l) | None => None end
                  end
           end
  end.
Definition nx_topo (es : list vpair) : option (list vpair) := kahn (List.length es) es.

Lemma pair_eqb_eq a b : pair_eqb a b = true <-> a = b.
Proof.
  destruct a, b. unfold pair_eqb. simpl. rewrite andb_true_iff, !String.eqb_eq. split; [intros [-> ->]; auto|intros E; inversion E; auto].
Qed.
Lemma remove_one_perm e es : In e es -> Permutation (e :: remove_one e es) es.
Proof.
  induction es as [|x r IH]; simpl; intros H; [destruct H|].
  destruct (pair_eqb e x) eqn:E; [apply pair_eqb_eq in E; subst; auto|].
  destruct H as [<-|H]; [exfalso; assert (pair_eqb x x = true) by (apply pair_eqb_eq; auto); congruence|].
  rewrite perm_swap. constructor. auto.
Qed.
Lemma free_spec es e : free es e = true <-> forall e', In e' es -> snd e' <> fst e.
Proof.
  unfold free. rewrite negb_true_iff. split.
  - intros H e' I E. assert (existsb (fun e' => String.eqb (snd e') (fst e)) es = true); [|congruence].
    apply existsb_exists. exists e'. split; auto. apply String.eqb_eq; auto.
  - intros H. destruct (existsb _ es) eqn:X; auto. apply existsb_exists in X. destruct X as [e' [I E]].
    apply String.eqb_eq in E. exfalso. eapply H; eauto.
Qed.

Lemma kahn_some f : forall es l, List.length es <= f -> kahn f es = Some l -> Permutation l es /\ respects l.
Proof.
  assert (R0 : respects []).
  { intros pre e post E. destruct pre; discriminate. }
  induction f as [|f IH]; simpl; intros es l L H.
  - destruct es; simpl in L; [|lia]. inversion H; subst. auto.
  - destruct es as [|x r]; [inversion H; subst; auto|]. set (es := x :: r) in *.
    destruct (find (free es) es) as [e|] eqn:F; [|discriminate].
    apply find_some in F. destruct F as [I F]. rewrite free_spec in F.
    destruct (kahn f (remove_one e es)) as [l'|] eqn:K; [|discriminate]. inversion H; subst l.
    pose proof (remove_one_perm e es I) as P.
    destruct (IH (remove_one e es) l') as [A B]; auto.
    { apply Permutation_length in P. simpl in P. unfold es in *. simpl in *. lia. }
    assert (P' : Permutation (e :: l') es) by (rewrite A; auto).
    split; auto. intros pre e0 post E e' I'. destruct pre as [|y pre]; simpl in E; inversion E; subst.
    + apply F. eapply Permutation_in; eauto.
    + apply (B pre e0 post); auto.
Qed.
Lemma kahn_none f : forall es, kahn f es = None -> stuck es.
Proof.
  induction f as [|f IH]; simpl; intros es H; [discriminate|].
  destruct es as [|x r]; [discriminate|]. set (es := x :: r) in *.
  destruct (find (free es) es) as [e|] eqn:F.
  - destruct (kahn f (remove_one e es)) eqn:K; [discriminate|].
    destruct (IH _ K) as [s [A [B C]]]. exists s. split; auto. split; auto.
    apply find_some in F. destruct F as [I _].
    intros y Y. eapply Permutation_in; [apply (remove_one_perm e es I)|]. right. auto.
  - exists es. split; [discriminate|]. split; [intros y Y; auto|]. intros e I.
    pose proof (find_none _ _ F e I) as N. unfold free in N. apply negb_false_iff in N.
    apply existsb_exists in N. destruct N as [e' [I' E]]. apply String.eqb_eq in E. eauto.
Qed.
Theorem nx_topo_contract : topological_contract nx_topo.
Proof. split; [intros es l; apply kahn_some; auto|intros es; apply kahn_none]. Qed.

(** Cheapest walks with at most n edges *)
Fixpoint argmin (l : list (nat * list string)) : option (nat * list string) :=
  match l with
  | [] => None
  | x :: r => match argmin r with
              | None => Some x
              | Some y => if fst y <? fst x then Some y else Some x
              end
  end.
Lemma argmin_In l x : argmin l = Some x -> In x l.
Proof.
  revert x. induction l as [|y r IH]; simpl; intros x H; [discriminate|].
  destruct (argmin r) as [z|]; [|inversion H; auto]. destruct (fst z <? fst y); inversion H; subst; auto.
Qed.
Lemma argmin_min l y : In y l -> exists x, argmin l = Some x /\ fst x <= fst y.
Proof.
  induction l as [|z r IH]; simpl; intros H; [destruct H|].
  destruct H as [<-|H].
  - destruct (argmin r) as [u|]; [|eauto]. destruct (Nat.ltb_spec (fst u) (fst z)); eexists; split; eauto; lia.
  - destruct (IH H) as [x [A B]]. rewrite A. destruct (Nat.ltb_spec (fst x) (fst z)); eexists; split; eauto; lia.
Qed.

Fixpoint best (g : graph) (n : nat) (s t : string) : option (nat * list string) :=
  argmin ((if String.eqb s t then [(0, [])] else []) ++
          match n with
          | O => []
          | S n => flat_map (fun x => match get_edge g s x with
                                      | Some e => match best g n x t with
                                                  | Some (w, r) => [(e_weight e + w, x :: r)]
                                                  | None => []
                                                  end
                                      | None => []
                                      end) (g_succ g s)
          end).
Definition nx_sp (g : graph) (s t : string) : option (list string) :=
  match best g (List.length g) s t with Some (_, r) => Some (s :: r) | None => None end.

Lemma best_walk g n : forall s t w r, best g n s t = Some (w, r) -> walk g s r t w.
Proof.
  induction n as [|n IH]; cbn [best]; intros s t w r H; apply argmin_In in H; apply in_app_or in H; destruct H as [H|H].
  - destruct (String.eqb_spec s t); [|destruct H]. destruct H as [H|[]]. inversion H; subst. constructor.
  - destruct H.
  - destruct (String.eqb_spec s t); [|destruct H]. destruct H as [H|[]]. inversion H; subst. constructor.
  - apply in_flat_map in H. destruct H as [x [_ H]]. destruct (get_edge g s x) as [e|] eqn:E; [|destruct H].
    destruct (best g n x t) as [[w' r']|] eqn:B; [|destruct H]. destruct H as [H|[]]. inversion H; subst.
    econstructor; eauto.
Qed.
Lemma best_min g n : forall s t w r, walk g s r t w -> List.length r <= n ->
  exists w' r', best g n s t = Some (w', r') /\ w' <= w.
Proof.
  assert (Z : forall m, forall s, exists w' r', best g m s s = Some (w', r') /\ w' <= 0).
  { intros m s. assert (X : exists x, best g m s s = Some x /\ fst x <= fst (0, @nil string)).
    { destruct m; cbn [best]; apply argmin_min; rewrite String.eqb_refl; left; reflexivity. }
    destruct X as [[w' r'] [A B]]. exists w', r'. auto. }
  induction n as [|n IH]; intros s t w r W L; destruct W; try apply Z; simpl in L; try lia.
  destruct (IH _ _ _ _ W) as [w' [r' [A B]]]; [lia|].
  assert (X : exists y, best g (S n) s t = Some y /\ fst y <= fst (e_weight e + w', x :: r')).
  { cbn [best]. apply argmin_min. apply in_or_app. right. apply in_flat_map. exists x. split.
    - unfold g_succ. unfold get_edge in H. destruct (assoc s g); [|discriminate]. apply assoc_In in H.
      apply in_map_iff. exists (x, e). auto.
    - rewrite H, A. left; auto. }
  destruct X as [[w2 r2] [C D]]. simpl in D. exists w2, r2. split; auto. lia.
Qed.

Lemma shorten g s r t w : walk g s r t w -> exists r' w', walk g s r' t w' /\ w' <= w /\ NoDup (s :: r').
Proof.
  induction 1 as [s|s x rest t w e E W [r' [w' [A [B C]]]]].
  - exists [], 0. split; [constructor|]. split; auto. constructor; [intros []|constructor].
  - destruct (in_dec string_dec s (x :: r')) as [I|N].
    + destruct I as [->|I].
      * exists r', w'. split; auto. split; auto. lia.
      * apply in_split in I. destruct I as [a [b ->]].
        apply walk_split in A. destruct A as [w1 [w2 [A1 [A2 ->]]]].
        exists b, w2. split; auto. split; [lia|].
        apply NoDup_cons_iff in C. destruct C as [_ C]. apply NoDup_remove in C. destruct C as [C D].
        apply NoDup_cons_iff in C || idtac. constructor.
        { intros X. apply D. apply in_or_app; auto. }
        clear - C. induction a; simpl in *; auto. inversion C; auto.
    + exists (x :: r'), (e_weight e + w'). split; [econstructor; eauto|]. split; [lia|]. constructor; auto.
Qed.

Lemma walk_sources g s r t w : walk g s r t w -> incl (removelast (s :: r)) (map fst g).
Proof.
  induction 1; simpl; intros y Y; [destruct Y|].
  destruct Y as [<-|Y]; [|apply IHwalk; auto].
  unfold get_edge in H. destruct (assoc s g) eqn:A; [|discriminate]. apply assoc_In in A.
  apply in_map_iff. exists (s, a). auto.
Qed.

Theorem nx_sp_contract g : shortest_path_contract g (nx_sp g).
Proof.
  assert (M : forall s t r w, walk g s r t w -> exists w' r', best g (List.length g) s t = Some (w', r') /\ w' <= w).
  { intros s t r w W. destruct (shorten _ _ _ _ _ W) as [r2 [w2 [A [B C]]]].
    destruct (best_min g (List.length g) s t w2 r2 A) as [w' [r' [D E]]]; [|exists w', r'; split; auto; lia].
    pose proof (walk_sources _ _ _ _ _ A) as I.
    assert (ND : NoDup (removelast (s :: r2))).
    { rewrite (app_removelast_last "" (l := s :: r2)) in C by discriminate. apply NoDup_remove_1 in C. rewrite app_nil_r in C. auto. }
    pose proof (NoDup_incl_length ND I) as L. rewrite map_length in L.
    assert (L2 : List.length (removelast (s :: r2)) = List.length r2).
    { clear. pose proof (f_equal (@List.length string) (app_removelast_last "" (l := s :: r2) ltac:(discriminate))) as H.
      rewrite app_length in H. cbn [List.length] in H. lia. }
    lia. }
  split.
  - intros s t p H. unfold nx_sp in H. destruct (best g (List.length g) s t) as [[w r]|] eqn:B; [|discriminate].
    inversion H; subst. exists r, w. split; auto. split; [eapply best_walk; eauto|].
    intros r' w' W. destruct (M _ _ _ _ W) as [w2 [r2 [A L]]]. rewrite A in B. inversion B; subst. auto.
  - intros s t H r w W. unfold nx_sp in H. destruct (M _ _ _ _ W) as [w2 [r2 [A L]]]. rewrite A in H. discriminate.
Qed.
