(** Texts are read in one way only, and what putting one text in another does to the reading. *)
From Coq Require Import List String Bool Arith Lia.
From Verif Require Import PyBase Prec_Model Prec_Spec.
Import ListNotations.
Local Open Scope string_scope.
Local Open Scope list_scope.
Local Open Scope nat_scope.

Lemma R_weaken : forall lv n m ts e, R lv n ts e -> m <= n -> R lv m ts e.
Proof.
  intros lv n m ts e H L. induction L; [exact H|]. apply IHL. now apply R_weak.
Qed.

(** ** One reading: a parser that goes from left to right *)
Inductive mode := Prim | Climb (n : nat) | Loop (n : nat) (a : expr).
Definition stops (n : nat) (ts : list tok) : Prop := match ts with TOp o :: _ => prec o < n | _ => True end.
Inductive go : mode -> list tok -> expr -> list tok -> Prop :=
  | g_atom s r : go Prim (TAtom s :: r) (EAtom s) r
  | g_ref x r : go Prim (TRef x :: r) (ERef x) r
  | g_paren ts e r : go (Climb 0) ts e (TClose :: r) -> go Prim (TOpen :: ts) e r
  | g_call f ts e r : go (Climb 0) ts e (TClose :: r) -> go Prim (TCall f :: ts) (ECall f e) r
  | g_case ts c r1 s r2 : go (Climb 0) ts c (TThen :: r1) -> go (Climb 0) r1 s (TEnd :: r2) ->
      go Prim (TCase :: ts) (ECase c s) r2
  | g_climb n ts a r1 e r : go Prim ts a r1 -> go (Loop n a) r1 e r -> go (Climb n) ts e r
  | g_not n ts a r1 e r : n <= 3 -> go (Climb 3) ts a r1 -> go (Loop n (ENot a)) r1 e r -> go (Climb n) (TNot :: ts) e r
  | g_stop n a ts : stops n ts -> go (Loop n a) ts a ts
  | g_step n a o ts b r1 e r : n <= prec o -> go (Climb (S (prec o))) ts b r1 -> go (Loop n (EBin o a b)) r1 e r ->
      go (Loop n a) (TOp o :: ts) e r.

Lemma go_det : forall m ts e r, go m ts e r -> forall e' r', go m ts e' r' -> e = e' /\ r = r'.
Proof.
  induction 1; intros e' r' G; inversion G; subst; try (split; reflexivity);
    repeat match goal with
           | IH : forall e' r', go ?m ?t e' r' -> _, H : go ?m ?t _ _ |- _ =>
               let A := fresh in let B := fresh in
               destruct (IH _ _ H) as [A B]; clear IH; try subst; try (injection B as B; subst)
           end;
    try (split; congruence);
    try match goal with H : go Prim (TNot :: _) _ _ |- _ => inversion H end;
    try match goal with H : stops _ (TOp _ :: _) |- _ => cbn [stops] in H; lia end.
Qed.

Definition tame (n : nat) (ts : list tok) : Prop := match ts with TOp o :: _ => prec o <= n | _ => True end.
Lemma prec_not3 : forall o, prec o <> 3.
Proof. destruct o; cbn; lia. Qed.
Lemma R_go : forall lv n ts e, R lv n ts e -> forall m rest e' r', m <= n -> tame n rest ->
  go (Loop m e) rest e' r' -> go (Climb m) (ts ++ rest) e' r'.
Proof.
  intros lv n ts e H. induction H; intros m rest e' r' L T G.
  - eapply g_climb; [apply g_atom | exact G].
  - eapply g_climb; [apply g_ref | exact G].
  - cbn [app]. rewrite <- app_assoc. eapply g_climb; [|exact G]. apply g_paren.
    apply IHR; [lia | exact I | apply g_stop; exact I].
  - cbn [app]. rewrite <- app_assoc. eapply g_climb; [|exact G]. apply g_call.
    apply IHR; [lia | exact I | apply g_stop; exact I].
  - cbn [app]. rewrite <- app_assoc. cbn [app]. rewrite <- app_assoc. eapply g_climb; [|exact G].
    apply g_case with (r1 := s ++ TEnd :: rest).
    + apply IHR1; [lia | exact I | apply g_stop; exact I].
    + apply IHR2; [lia | exact I | apply g_stop; exact I].
  - cbn [app]. eapply g_not; [exact L | | exact G]. apply IHR; [lia | exact T |]. apply g_stop.
    destruct rest as [|[| |o| | | | | | |] rest]; cbn in *; auto. pose proof (prec_not3 o). lia.
  - rewrite <- app_assoc. cbn [app]. apply IHR1; [lia | cbn; lia |].
    eapply g_step; [exact L | | exact G]. apply IHR2; [lia | |].
    + destruct rest as [|[| |o'| | | | | | |] rest]; cbn in *; auto.
    + apply g_stop. destruct rest as [|[| |o'| | | | | | |] rest]; cbn in *; auto. lia.
  - apply IHR; [lia | | exact G]. destruct rest as [|[| |o'| | | | | | |] rest]; cbn in *; auto.
Qed.
Lemma R_unique : forall lv lv' n n' ts e e', R lv n ts e -> R lv' n' ts e' -> e = e'.
Proof.
  intros lv lv' n n' ts e e' H H'.
  assert (A : go (Climb 0) (ts ++ []) e []) by (eapply R_go; [exact H | lia | exact I | apply g_stop; exact I]).
  assert (B : go (Climb 0) (ts ++ []) e' []) by (eapply R_go; [exact H' | lia | exact I | apply g_stop; exact I]).
  apply (go_det _ _ _ _ A _ _ B).
Qed.

(** A text read with low levels for references reads the same when they count as names *)
Lemma R_names : forall lv n ts e, R lv n ts e -> R (fun _ => 7) n ts e.
Proof.
  intros lv n ts e H. induction H; try (econstructor; eassumption).
  apply (R_weaken _ 7); [|assumption]. apply (R_ref (fun _ => 7)). lia.
Qed.

(** ** Replacing references *)
Lemma subst_app : forall f a b r, subst_refs f (a ++ b) = Ok r ->
  exists x y, subst_refs f a = Ok x /\ subst_refs f b = Ok y /\ r = x ++ y.
Proof.
  unfold subst_refs. intros f a. induction a as [|t a IH]; intros b r H.
  - exists [], r. auto.
  - cbn [app concatM] in H |- *. apply bind_ok in H. destruct H as [u [A B]]. apply bind_ok in B. destruct B as [v [B C]].
    apply IH in B. destruct B as [x [y [X [Y Z]]]]. rewrite A, X. cbn [bind].
    exists (u ++ x), y. injection C as <-. subst v. rewrite <- app_assoc. auto.
Qed.
Lemma subst_cons : forall f t b r, subst_refs f (t :: b) = Ok r -> (forall x, t <> TRef x) ->
  exists y, subst_refs f b = Ok y /\ r = t :: y.
Proof.
  unfold subst_refs. intros f t b r H N. cbn [concatM] in H. destruct t; try (exfalso; eapply N; reflexivity);
    cbn [bind] in H; apply bind_ok in H; destruct H as [v [B C]]; injection C as <-; exists v; auto.
Qed.
Lemma subst_ref : forall f x r, subst_refs f [TRef x] = Ok r -> f x = Ok r.
Proof.
  unfold subst_refs. intros f x r H. cbn [concatM] in H. apply bind_ok in H. destruct H as [u [A B]]. cbn [bind] in B.
  injection B as <-. now rewrite app_nil_r.
Qed.

Ltac subst_step :=
  match goal with
  | H : subst_refs _ [] = Ok _ |- _ => cbn in H; injection H as <-
  | H : subst_refs _ (_ ++ _) = Ok _ |- _ => apply subst_app in H; destruct H as [? [? [? [? ->]]]]
  | H : subst_refs _ (_ :: _) = Ok _ |- _ => apply subst_cons in H; [destruct H as [? [? ->]] | discriminate]
  end.

Lemma R_subst : forall lv lv' M f n ts e, R lv n ts e ->
  forall ts' e', subst_refs f ts = Ok ts' -> inst M e e' ->
  (forall x t ex, In (TRef x) ts -> f x = Ok t -> M x ex -> R lv' (lv x) t ex) ->
  R lv' n ts' e'.
Proof.
  intros lv lv' M f n ts e H. induction H; intros ts' e' S I X.
  - repeat subst_step. inversion I; subst. apply R_atom.
  - apply subst_ref in S. inversion I; subst. apply (X x); [left; reflexivity | exact S | assumption].
  - repeat subst_step. apply R_paren. apply IHR; try assumption.
    intros; eapply X; eauto. right. apply in_or_app. now left.
  - repeat subst_step. inversion I; subst. apply R_call. apply IHR; try assumption.
    intros; eapply X; eauto. right. apply in_or_app. now left.
  - repeat subst_step. inversion I; subst. apply R_case; [apply IHR1 | apply IHR2]; try assumption;
      intros; eapply X; eauto; right; apply in_or_app; [now left | right; right; apply in_or_app; now left].
  - repeat subst_step. inversion I; subst. apply R_not. apply IHR; try assumption.
    intros; eapply X; eauto. now right.
  - repeat subst_step. inversion I; subst. apply R_bin; [apply IHR1 | apply IHR2]; try assumption;
      intros; eapply X; eauto; apply in_or_app; [now left | right; now right].
  - apply R_weak. apply IHR; assumption.
Qed.

Lemma calls_R : forall lv fs ts e, R lv 0 ts e -> R lv 0 (calls fs ts) (fold_right ECall e fs).
Proof.
  intros lv fs ts e H. induction fs as [|f fs IH]; [exact H|]. cbn [calls fold_right].
  apply (R_weaken _ 7); [|lia]. apply R_call. exact IH.
Qed.

Lemma inst_mono : forall (M M' : string -> expr -> Prop) e e', (forall x y, M x y -> M' x y) -> inst M e e' -> inst M' e e'.
Proof. intros M M' e e' L H. induction H; constructor; auto. Qed.
