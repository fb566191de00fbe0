(** The other direction: a text put inside another is read as one operand only where its operators bind tightly
    enough. *)
From Coq Require Import List String Bool Arith Lia.
From Verif Require Import PyBase Prec_Model Prec_Spec Prec_Proofs.
Import ListNotations.
Local Open Scope string_scope.
Local Open Scope list_scope.
Local Open Scope nat_scope.

(** ** Shapes: brackets match, every operator is followed by an operand, and the operands are those of the tree *)
Definition dstep (d : option nat) (t : tok) : option nat :=
  match d with
  | None => None
  | Some k => match t with
              | TOpen | TCall _ | TCase => Some (S k)
              | TClose | TEnd => match k with O => None | S k => Some k end
              | _ => Some k
              end
  end.
Definition pstep (b : bool) (t : tok) : bool :=
  match t with TAtom _ | TRef _ => false | TClose | TEnd => b | _ => true end.
Definition is_leaf (t : tok) : bool := match t with TAtom _ | TRef _ => true | _ => false end.
Definition leaves (ts : list tok) : nat := List.length (filter is_leaf ts).
Fixpoint size (e : expr) : nat :=
  match e with
  | EAtom _ | ERef _ => 1
  | EBin _ a b => size a + size b
  | ENot a => size a
  | ECall _ a => size a
  | ECase c a => size c + size a
  end.
Definition shape (ts : list tok) (e : expr) : Prop :=
  (forall k, fold_left dstep ts (Some k) = Some k) /\ (forall b, fold_left pstep ts b = false) /\ leaves ts = size e.

Lemma leaves_app : forall a b, leaves (a ++ b) = leaves a + leaves b.
Proof. intros. unfold leaves. now rewrite filter_app, app_length. Qed.
Lemma leaves_cons : forall t b, leaves (t :: b) = (if is_leaf t then 1 else 0) + leaves b.
Proof. intros. unfold leaves. cbn [filter]. destruct (is_leaf t); reflexivity. Qed.

Lemma shape_leaf : forall t e, is_leaf t = true -> size e = 1 -> shape [t] e.
Proof. intros t e L S. destruct t; try discriminate; (split; [|split]); intros; cbn; auto. Qed.
Lemma shape_wrap : forall o c ts e e', shape ts e -> (o = TOpen \/ exists f, o = TCall f) -> c = TClose -> size e' = size e -> shape (o :: ts ++ [c]) e'.
Proof.
  intros o c ts e e' [D [P L]] O -> S. split; [|split].
  - intro k. cbn [fold_left]. rewrite fold_left_app.
    destruct O as [-> | [f ->]]; cbn [dstep]; rewrite D; reflexivity.
  - intro b. cbn [fold_left]. rewrite fold_left_app, P. reflexivity.
  - rewrite leaves_cons, leaves_app. destruct O as [-> | [f ->]]; cbn; rewrite L, S; lia.
Qed.
Lemma shape_case : forall c ec s es, shape c ec -> shape s es -> shape (TCase :: c ++ TThen :: s ++ [TEnd]) (ECase ec es).
Proof.
  intros c ec s es [D [P L]] [D' [P' L']]. split; [|split].
  - intro k. cbn [fold_left dstep]. rewrite fold_left_app, D. cbn [fold_left dstep]. rewrite fold_left_app, D'. reflexivity.
  - intro b. cbn [fold_left]. rewrite fold_left_app, P. cbn [fold_left]. rewrite fold_left_app, P'. reflexivity.
  - rewrite leaves_cons, leaves_app, leaves_cons, leaves_app. cbn. rewrite L, L'. lia.
Qed.
Lemma shape_not : forall ts e, shape ts e -> shape (TNot :: ts) (ENot e).
Proof.
  intros ts e [D [P L]]. split; [|split].
  - intro k. cbn [fold_left dstep]. apply D.
  - intro b. cbn [fold_left]. apply P.
  - rewrite leaves_cons. exact L.
Qed.
Lemma shape_bin : forall o l a r b, shape l a -> shape r b -> shape (l ++ TOp o :: r) (EBin o a b).
Proof.
  intros o l a r b [D [P L]] [D' [P' L']]. split; [|split].
  - intro k. rewrite fold_left_app, D. cbn [fold_left dstep]. apply D'.
  - intro c. rewrite fold_left_app, P. cbn [fold_left]. apply P'.
  - rewrite leaves_app, leaves_cons. cbn. rewrite L, L'. lia.
Qed.
Lemma R_shape : forall lv n ts e, R lv n ts e -> shape ts e.
Proof.
  intros lv n ts e H. induction H.
  - apply shape_leaf; reflexivity.
  - apply shape_leaf; reflexivity.
  - eapply shape_wrap; eauto.
  - eapply shape_wrap; eauto.
  - apply shape_case; assumption.
  - apply shape_not; assumption.
  - apply shape_bin; assumption.
  - assumption.
Qed.
Lemma subst_shape : forall lv M f n ts e, R lv n ts e ->
  forall ts' e', subst_refs f ts = Ok ts' -> inst M e e' ->
  (forall x t ex, In (TRef x) ts -> f x = Ok t -> M x ex -> shape t ex) -> shape ts' e'.
Proof.
  intros lv M f n ts e H. induction H; intros ts' e' S I X.
  - repeat subst_step. inversion I; subst. apply shape_leaf; reflexivity.
  - apply subst_ref in S. inversion I; subst. apply (X x); [left; reflexivity | exact S | assumption].
  - repeat subst_step. eapply shape_wrap; [eapply IHR; try eassumption | auto | auto | auto].
    intros; eapply X; eauto. right. apply in_or_app. now left.
  - repeat subst_step. inversion I; subst. eapply shape_wrap; [eapply IHR; try eassumption | eauto | auto | auto].
    intros; eapply X; eauto. right. apply in_or_app. now left.
  - repeat subst_step. inversion I; subst. apply shape_case; [apply IHR1 | apply IHR2]; try assumption;
      intros; eapply X; eauto; right; apply in_or_app; [now left | right; right; apply in_or_app; now left].
  - repeat subst_step. inversion I; subst. apply shape_not. apply IHR; try assumption.
    intros; eapply X; eauto. now right.
  - repeat subst_step. inversion I; subst. apply shape_bin; [apply IHR1 | apply IHR2]; try assumption;
      intros; eapply X; eauto; apply in_or_app; [now left | right; now right].
  - apply IHR; assumption.
Qed.

(** ** Splitting a text at an operator *)
Lemma pend_true : forall m, leaves m = 0 -> fold_left pstep m true = true.
Proof.
  induction m as [|t m IH]; intro H; [reflexivity|]. rewrite leaves_cons in H.
  destruct t; cbn in H; try discriminate; cbn [fold_left pstep]; apply IH; exact H.
Qed.
Lemma dnone : forall ts, fold_left dstep ts None = None.
Proof. induction ts; [reflexivity | exact IHts]. Qed.
(** a text cut at a token that waits for an operand is cut in one way *)
Lemma one_split : forall t t' l r l' r' a a',
  (forall b, pstep b t = true) -> (forall b, pstep b t' = true) ->
  l ++ t :: r = l' ++ t' :: r' -> shape l a -> shape l' a' -> size a = size a' -> l = l' /\ t = t' /\ r = r'.
Proof.
  intros t t' l r l' r' a a' T T' E S S' Z.
  destruct (app_eq_app _ _ _ _ E) as [m [[A B] | [A B]]]; destruct m as [|u m].
  - rewrite app_nil_r in A. cbn in B. injection B as -> ->. auto.
  - exfalso. cbn in B. injection B as -> B. subst r'. destruct S as [_ [P L]]. destruct S' as [_ [_ L']].
    rewrite A, leaves_app, leaves_cons in L.
    assert (leaves m = 0) as N by lia. specialize (P true). rewrite A, fold_left_app in P. cbn [fold_left] in P.
    rewrite T', pend_true in P by exact N. discriminate.
  - rewrite app_nil_r in A. cbn in B. injection B as -> ->. auto.
  - exfalso. cbn in B. injection B as -> B. subst r. destruct S' as [_ [P L]]. destruct S as [_ [_ L']].
    rewrite A, leaves_app, leaves_cons in L.
    assert (leaves m = 0) as N by lia. specialize (P true). rewrite A, fold_left_app in P. cbn [fold_left] in P.
    rewrite T, pend_true in P by exact N. discriminate.
Qed.
(** nothing that matches its brackets is a proper beginning of a bracketed text *)
Lemma no_cut : forall ts c l m, (forall k, fold_left dstep ts (Some k) = Some k) -> m <> [] ->
  TOpen :: ts ++ [c] = l ++ m -> l <> [] -> (forall k, fold_left dstep l (Some k) = Some k) -> False.
Proof.
  intros ts c l m D N E L Dl. destruct l as [|t l]; [congruence|]. cbn [app] in E. injection E as <- E.
  destruct (exists_last N) as [m0 [z ->]]. rewrite app_assoc in E. apply app_inj_tail in E. destruct E as [-> _].
  specialize (Dl 0). cbn [fold_left dstep] in Dl.
  assert (K : exists j, fold_left dstep l (Some 0) = Some j /\ forall i, fold_left dstep l (Some (i + 0)) = Some (i + j)).
  { specialize (D 0). rewrite fold_left_app in D. destruct (fold_left dstep l (Some 0)) as [j|] eqn:F; [|rewrite dnone in D; discriminate].
    exists j. split; [reflexivity|]. clear - F. intro i. revert j F.
    assert (G : forall l k j, fold_left dstep l (Some k) = Some j -> fold_left dstep l (Some (i + k)) = Some (i + j)).
    { clear. induction l as [|t l IH]; intros k j H; [cbn in *; congruence|]. cbn [fold_left] in *.
      destruct t; cbn [dstep] in *; try (apply IH; exact H);
        try (replace (S (i + k)) with (i + S k) by lia; apply IH; exact H);
        try (destruct k as [|k]; [rewrite dnone in H; discriminate | replace (i + S k) with (S (i + k)) by lia; apply IH; exact H]). }
    intros j F. apply G. exact F. }
  destruct K as [j [_ G]]. specialize (G 1). rewrite Nat.add_0_r in G. rewrite G in Dl. discriminate.
Qed.
Lemma shape_nonempty : forall ts e, shape ts e -> ts <> [].
Proof. intros ts e [_ [P _]] ->. specialize (P true). discriminate. Qed.

Lemma bin_inv : forall lv n ts e, R lv n ts e -> forall o l a r b, ts = l ++ TOp o :: r -> e = EBin o a b ->
  shape l a -> shape r b -> R lv (prec o) l a /\ R lv (S (prec o)) r b /\ n <= prec o.
Proof.
  intros lv n ts e H. induction H; intros o' l' a' r' b' E F Sl Sr; try discriminate F.
  - exfalso. apply (no_cut ts TClose l' (TOp o' :: r') (proj1 (R_shape _ _ _ _ H))); [discriminate | exact E | eapply shape_nonempty; eassumption | apply Sl].
  - injection F as -> -> ->. destruct (one_split (TOp o') (TOp o') _ _ _ _ a' a' (fun _ => eq_refl) (fun _ => eq_refl) E (R_shape _ _ _ _ H) Sl eq_refl) as [-> [_ ->]].
    auto.
  - destruct (IHR o' l' a' r' b' E F Sl Sr) as [A [B C]]. repeat split; [exact A | exact B | lia].
Qed.
Lemma not_inv : forall lv n ts e, R lv n ts e -> forall t a, ts = TNot :: t -> e = ENot a -> R lv 3 t a /\ n <= 3.
Proof.
  intros lv n ts e H. induction H; intros t a0 E F; try discriminate E; try discriminate F.
  - injection E as ->. injection F as ->. auto.
  - destruct (IHR t a0 E F). split; [assumption | lia].
Qed.
Lemma call_inv : forall lv n ts e, R lv n ts e -> forall f t a, ts = TCall f :: t ++ [TClose] -> e = ECall f a -> R lv 0 t a.
Proof.
  intros lv n ts e H. induction H; intros f' t a0 E F; try discriminate E; try discriminate F; eauto.
  injection E as -> E. injection F as ->. apply app_inj_tail in E. destruct E as [-> _]. assumption.
Qed.
Lemma case_inv : forall lv n ts e, R lv n ts e -> forall c ec s es, ts = TCase :: c ++ TThen :: s ++ [TEnd] -> e = ECase ec es ->
  shape c ec -> R lv 0 c ec /\ R lv 0 s es.
Proof.
  intros lv n ts e H. induction H; intros c' ec' s' es' E F Sc; try discriminate E; try discriminate F; eauto.
  injection E as E. injection F as -> ->.
  destruct (one_split TThen TThen _ _ _ _ ec' ec' (fun _ => eq_refl) (fun _ => eq_refl) E (R_shape _ _ _ _ H) Sc eq_refl) as [-> [_ Q]].
  apply app_inj_tail in Q. destruct Q as [-> _]. auto.
Qed.
Lemma paren_inv : forall lv n ts e, R lv n ts e -> forall t, ts = TOpen :: t ++ [TClose] -> (forall k, fold_left dstep t (Some k) = Some k) -> R lv 0 t e.
Proof.
  intros lv n ts e H. induction H; intros t E D; try discriminate E; eauto.
  - injection E as E. apply app_inj_tail in E. destruct E as [-> _]. assumption.
  - exfalso. symmetry in E. apply (no_cut t TClose l (TOp o :: r) D); [discriminate | exact E | eapply shape_nonempty; eapply R_shape; eassumption | apply (R_shape _ _ _ _ H)].
Qed.

(** ** Levels are needed *)
Lemma R_le7 : forall lv n ts e, R lv n ts e -> n <= 7.
Proof. intros lv n ts e H. induction H; try lia. Qed.
Lemma R_raise : forall lv lv' n ts e, (forall x, lv x <= lv' x /\ lv' x <= 7) -> R lv n ts e -> R lv' n ts e.
Proof.
  intros lv lv' n ts e L H. induction H; try (econstructor; eassumption).
  destruct (L x). apply (R_weaken _ (lv' x)); [apply R_ref|]; assumption.
Qed.
Definition fits (f : string -> res (list tok)) (M : string -> expr -> Prop) (lv : string -> nat) : Prop :=
  forall x t e, f x = Ok t -> M x e -> R (fun _ => 7) (lv x) t e.
Lemma fits_max : forall f M a b, fits f M a -> fits f M b -> fits f M (fun x => Nat.max (a x) (b x)).
Proof.
  intros f M a b A B x t e F X. destruct (Nat.max_spec (a x) (b x)) as [[_ ->] | [_ ->]]; [apply (B x) | apply (A x)]; assumption.
Qed.
Lemma levels_needed : forall f M, fits f M (fun _ => 0) -> forall n ts e, R (fun _ => 7) n ts e ->
  forall m ts' e', subst_refs f ts = Ok ts' -> inst M e e' -> R (fun _ => 7) m ts' e' ->
  exists lv, (forall x, lv x <= 7) /\ fits f M lv /\ R lv m ts e.
Proof.
  intros f M Z n ts e H.
  assert (SH : forall n ts e ts' e', R (fun _ => 7) n ts e -> subst_refs f ts = Ok ts' -> inst M e e' -> shape ts' e').
  { intros n0 ts0 e0 ts1 e1 A B C. eapply subst_shape; [exact A | exact B | exact C |].
    intros x t ex _ F X. eapply R_shape. eapply Z; eassumption. }
  induction H; intros m ts' e' S I Q; pose proof (R_le7 _ _ _ _ Q) as L7.
  - exists (fun _ => 0). split; [lia|]. split; [exact Z|]. apply (R_weaken _ 7); [apply R_atom | exact L7].
  - apply subst_ref in S. inversion I as [|x' e1 X| | | |]; subst.
    exists (fun y => if String.eqb y x then m else 0). split; [intro y; destruct (String.eqb y x); lia|]. split.
    + intros y t ey F Y. destruct (String.eqb y x) eqn:E; [|apply (Z y); assumption]. apply String.eqb_eq in E. subst y.
      rewrite S in F. injection F as ->. rewrite (R_unique _ _ _ _ _ _ _ (Z x t ey S Y) Q). exact Q.
    + pose proof (R_ref (fun y => if String.eqb y x then m else 0) x) as G. cbn beta in G. rewrite String.eqb_refl in G. auto.
  - repeat subst_step.
    match goal with A : subst_refs f ts = Ok ?u |- _ =>
      pose proof (SH _ _ _ _ _ H A I) as Sh;
      assert (Q0 : R (fun _ => 7) 0 u e') by (apply (paren_inv _ _ _ _ Q u); [reflexivity | apply Sh]);
      destruct (IHR 0 u e' A I Q0) as [lv [B [C D]]] end.
    exists lv. split; [exact B|]. split; [exact C|]. apply (R_weaken _ 7); [apply R_paren; exact D | exact L7].
  - repeat subst_step. inversion I as [| | | |g0 a a' Ia|]; subst.
    match goal with A : subst_refs f ts = Ok ?u |- _ =>
      destruct (IHR 0 u a' A Ia (call_inv _ _ _ _ Q _ _ _ eq_refl eq_refl)) as [lv [B [C D]]] end.
    exists lv. split; [exact B|]. split; [exact C|]. apply (R_weaken _ 7); [apply R_call; exact D | exact L7].
  - repeat subst_step. inversion I as [| | | | |c0 a0 c' a' Ic Ia]; subst.
    match goal with A : subst_refs f c = Ok ?u, A' : subst_refs f s = Ok ?v |- _ =>
      destruct (case_inv _ _ _ _ Q u c' v a' eq_refl eq_refl (SH _ _ _ _ _ H A Ic)) as [Q1 Q2];
      destruct (IHR1 0 u c' A Ic Q1) as [lv1 [B1 [C1 D1]]]; destruct (IHR2 0 v a' A' Ia Q2) as [lv2 [B2 [C2 D2]]] end.
    exists (fun x => Nat.max (lv1 x) (lv2 x)). split; [intro z; specialize (B1 z); specialize (B2 z); lia|].
    split; [apply fits_max; assumption|]. apply (R_weaken _ 7); [|exact L7].
    apply R_case; [apply (R_raise lv1); [|exact D1] | apply (R_raise lv2); [|exact D2]]; intro z; specialize (B1 z); specialize (B2 z); lia.
  - repeat subst_step. inversion I as [| | |a a' Ia| |]; subst.
    match goal with A : subst_refs f ts = Ok ?u |- _ =>
      destruct (not_inv _ _ _ _ Q u a' eq_refl eq_refl) as [Q1 L3]; destruct (IHR 3 u a' A Ia Q1) as [lv [B [C D]]] end.
    exists lv. split; [exact B|]. split; [exact C|]. apply (R_weaken _ 3); [apply R_not; exact D | exact L3].
  - repeat subst_step. inversion I as [| |o0 a0 b0 a' b' Ia Ib| | |]; subst.
    match goal with A : subst_refs f l = Ok ?u, A' : subst_refs f r = Ok ?v |- _ =>
      destruct (bin_inv _ _ _ _ Q o u a' v b' eq_refl eq_refl (SH _ _ _ _ _ H A Ia) (SH _ _ _ _ _ H0 A' Ib)) as [Q1 [Q2 L]];
      destruct (IHR1 _ u a' A Ia Q1) as [lv1 [B1 [C1 D1]]]; destruct (IHR2 _ v b' A' Ib Q2) as [lv2 [B2 [C2 D2]]] end.
    exists (fun x => Nat.max (lv1 x) (lv2 x)). split; [intro z; specialize (B1 z); specialize (B2 z); lia|].
    split; [apply fits_max; assumption|]. apply (R_weaken _ (prec o)); [|exact L].
    apply R_bin; [apply (R_raise lv1); [|exact D1] | apply (R_raise lv2); [|exact D2]]; intro z; specialize (B1 z); specialize (B2 z); lia.
  - apply (IHR m ts' e' S I Q).
Qed.
