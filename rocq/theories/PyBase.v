(** Python-level primitives shared by all models: exceptions as values, list helpers. *)
From Coq Require Export List String Ascii Arith ZArith Bool Lia Permutation.
Export ListNotations.

(** Exception classes raised by the code (metrics_layer/core/exceptions.py,
    metrics_layer/core/sql/query_errors.py) or by Python itself.  Messages are not modelled. *)
Inductive exc :=
| QueryError | JoinError | AccessDenied | ParseError | ArgumentError
| KeyError | IndexError | TypeError | ValueError | AttributeError
| NotImplemented | StopIteration | UnboundLocal | RecursionError.

Inductive res (A : Type) := Ok (a : A) | Err (e : exc).
Arguments Ok {A} a.
Arguments Err {A} e.

Definition bind {A B} (r : res A) (f : A -> res B) : res B :=
  match r with Ok a => f a | Err e => Err e end.
Notation "x <- r ;; k" := (bind r (fun x => k)) (at level 61, r at next level, right associativity).

Definition is_ok {A} (r : res A) : bool := match r with Ok _ => true | Err _ => false end.

Definition exc_eqb (a b : exc) : bool :=
  match a, b with
  | QueryError, QueryError | JoinError, JoinError | AccessDenied, AccessDenied
  | ParseError, ParseError | ArgumentError, ArgumentError | KeyError, KeyError
  | IndexError, IndexError | TypeError, TypeError | ValueError, ValueError
  | AttributeError, AttributeError | NotImplemented, NotImplemented
  | StopIteration, StopIteration | UnboundLocal, UnboundLocal
  | RecursionError, RecursionError => true
  | _, _ => false
  end.

Lemma exc_eqb_eq a b : exc_eqb a b = true <-> a = b.
Proof. destruct a, b; simpl; split; intros H; try reflexivity; discriminate. Qed.

(** A Python list comprehension whose element expression may raise: stops at the first raise. *)
Fixpoint mapM {A B} (f : A -> res B) (l : list A) : res (list B) :=
  match l with
  | [] => Ok []
  | x :: r => y <- f x ;; ys <- mapM f r ;; Ok (y :: ys)
  end.

(** [x for x in l if cond(x)] where the condition may raise. *)
Fixpoint filterM {A} (f : A -> res bool) (l : list A) : res (list A) :=
  match l with
  | [] => Ok []
  | x :: r => b <- f x ;; ys <- filterM f r ;; Ok (if b then x :: ys else ys)
  end.

(** Concatenating for-loop whose body may raise. *)
Fixpoint concatM {A B} (f : A -> res (list B)) (l : list A) : res (list B) :=
  match l with
  | [] => Ok []
  | x :: r => y <- f x ;; ys <- concatM f r ;; Ok (y ++ ys)
  end.

(** dict.get on an association list (first binding). *)
Fixpoint assoc {B} (k : string) (d : list (string * B)) : option B :=
  match d with
  | [] => None
  | (k', v) :: r => if String.eqb k k' then Some v else assoc k r
  end.

Definition mem (x : string) (l : list string) : bool := existsb (String.eqb x) l.

Lemma mem_In x l : mem x l = true <-> In x l.
Proof.
  unfold mem. rewrite existsb_exists. split.
  - intros (y & Hy & E). apply String.eqb_eq in E. subst; exact Hy.
  - intros H. exists x. split; [exact H | apply String.eqb_refl].
Qed.

Lemma mem_false x l : mem x l = false <-> ~ In x l.
Proof.
  rewrite <- mem_In. destruct (mem x l); split; intros H; try reflexivity; try discriminate.
  - exfalso; apply H; reflexivity.
Qed.

(** Order preserving de-duplication by a string key, the pattern of project.py:590-596,
    project.py:323-329, resolve.py:492-500 and query_generator.py:329-336. *)
Fixpoint dedup_by_aux {A} (key : A -> string) (seen : list string) (l : list A) : list A :=
  match l with
  | [] => []
  | x :: r => if mem (key x) seen then dedup_by_aux key seen r
              else x :: dedup_by_aux key (key x :: seen) r
  end.
Definition dedup_by {A} (key : A -> string) (l : list A) : list A := dedup_by_aux key [] l.

Definition dedup (l : list string) : list string := dedup_by (fun x => x) l.

(** ** Lemmas *)

Lemma bind_ok {A B} (r : res A) (f : A -> res B) b :
  bind r f = Ok b <-> exists a, r = Ok a /\ f a = Ok b.
Proof.
  destruct r as [a|e]; simpl; split.
  - intros H; exists a; split; [reflexivity|exact H].
  - intros (a' & E & H); injection E as <-; exact H.
  - discriminate.
  - intros (a' & E & H); discriminate.
Qed.

Lemma bind_err {A B} (r : res A) (f : A -> res B) e :
  bind r f = Err e <-> r = Err e \/ exists a, r = Ok a /\ f a = Err e.
Proof.
  destruct r as [a|e']; simpl; split.
  - intros H; right; exists a; split; [reflexivity|exact H].
  - intros [H|(a' & E & H)]; [discriminate|injection E as <-; exact H].
  - intros H; injection H as ->; left; reflexivity.
  - intros [H|(a' & E & H)]; [injection H as ->; reflexivity|discriminate].
Qed.

Lemma filterM_ok {A} (f : A -> res bool) l ys :
  filterM f l = Ok ys <->
  (forall x, In x l -> exists b, f x = Ok b) /\
  ys = filter (fun x => match f x with Ok true => true | _ => false end) l.
Proof.
  revert ys; induction l as [|x r IH]; intros ys; simpl.
  - split.
    + intros H; injection H as <-; split; [tauto|reflexivity].
    + intros [_ ->]; reflexivity.
  - destruct (f x) as [b|e] eqn:Ef; simpl.
    + destruct (filterM f r) as [zs|e'] eqn:Er; simpl.
      * split.
        -- intros H; injection H as <-.
           destruct (proj1 (IH zs) eq_refl) as [H1 H2]. split.
           ++ intros y [<-|Hy]; [exists b; exact Ef|apply H1; exact Hy].
           ++ subst zs; destruct b; reflexivity.
        -- intros [H1 H2]. destruct (proj1 (IH zs) eq_refl) as [H3 H4].
           subst zs ys. destruct b; reflexivity.
      * split; [discriminate|]. intros [H1 H2].
        assert (Hx : Err e' = Ok (filter (fun x => match f x with Ok true => true | _ => false end) r)).
        { apply IH. split; [intros y Hy; apply H1; right; exact Hy|reflexivity]. }
        discriminate Hx.
    + split; [discriminate|]. intros [H1 _]. destruct (H1 x (or_introl eq_refl)) as [b Hb].
      rewrite Ef in Hb; discriminate.
Qed.

Lemma filterM_err {A} (f : A -> res bool) l e :
  filterM f l = Err e -> exists x, In x l /\ f x = Err e.
Proof.
  induction l as [|x r IH]; simpl; [discriminate|].
  destruct (f x) as [b|e'] eqn:Ef; simpl.
  - destruct (filterM f r) as [zs|e''] eqn:Er; simpl; [discriminate|].
    intros H; injection H as ->. destruct (IH eq_refl) as (y & Hy & Hf).
    exists y; split; [right; exact Hy|exact Hf].
  - intros H; injection H as ->. exists x; split; [left; reflexivity|exact Ef].
Qed.

Lemma concatM_ok_In {A B} (f : A -> res (list B)) l ys :
  concatM f l = Ok ys ->
  forall y, In y ys <-> exists x zs, In x l /\ f x = Ok zs /\ In y zs.
Proof.
  revert ys; induction l as [|x r IH]; simpl; intros ys H y.
  - injection H as <-. split; [intros []|intros (x & zs & [] & _)].
  - apply bind_ok in H. destruct H as (a & Ha & H). apply bind_ok in H.
    destruct H as (b & Hb & H). injection H as <-. specialize (IH b Hb y).
    rewrite in_app_iff. split.
    + intros [Hy|Hy].
      * exists x, a; split; [left; reflexivity|split; [exact Ha|exact Hy]].
      * apply IH in Hy. destruct Hy as (x' & zs & H1 & H2 & H3).
        exists x', zs; split; [right; exact H1|split; assumption].
    + intros (x' & zs & [<-|H1] & H2 & H3).
      * rewrite Ha in H2; injection H2 as <-. left; exact H3.
      * right; apply IH. exists x', zs; split; [exact H1|split; assumption].
Qed.

Lemma concatM_ok_all {A B} (f : A -> res (list B)) l ys :
  concatM f l = Ok ys -> forall x, In x l -> exists zs, f x = Ok zs.
Proof.
  revert ys; induction l as [|x r IH]; simpl; intros ys H y; [tauto|].
  apply bind_ok in H. destruct H as (a & Ha & H). apply bind_ok in H.
  destruct H as (b & Hb & H). intros [<-|Hy]; [exists a; exact Ha|exact (IH b Hb y Hy)].
Qed.

Lemma concatM_err {A B} (f : A -> res (list B)) l e :
  concatM f l = Err e -> exists x, In x l /\ f x = Err e.
Proof.
  induction l as [|x r IH]; simpl; [discriminate|].
  destruct (f x) as [b|e'] eqn:Ef; simpl.
  - destruct (concatM f r) as [zs|e''] eqn:Er; simpl; [discriminate|].
    intros H; injection H as ->. destruct (IH eq_refl) as (y & Hy & Hf).
    exists y; split; [right; exact Hy|exact Hf].
  - intros H; injection H as ->. exists x; split; [left; reflexivity|exact Ef].
Qed.

Lemma concatM_eq {A B} (f : A -> res (list B)) (g : A -> list B) l :
  (forall x, In x l -> f x = Ok (g x)) -> concatM f l = Ok (flat_map g l).
Proof.
  induction l as [|x r IH]; simpl; intros H; [reflexivity|].
  rewrite (H x (or_introl eq_refl)); simpl. rewrite IH; [reflexivity|].
  intros y Hy; apply H; right; exact Hy.
Qed.

Lemma mapM_ok {A B} (f : A -> res B) l ys :
  mapM f l = Ok ys <-> Forall2 (fun x y => f x = Ok y) l ys.
Proof.
  revert ys; induction l as [|x r IH]; intros ys; simpl.
  - split; [intros H; injection H as <-; constructor|intros H; inversion H; reflexivity].
  - split.
    + intros H. apply bind_ok in H. destruct H as (a & Ha & H). apply bind_ok in H.
      destruct H as (b & Hb & H). injection H as <-. constructor; [exact Ha|apply IH; exact Hb].
    + intros H; inversion H as [|x' y' l' l'' H1 H2]; subst. rewrite H1; simpl.
      apply IH in H2. rewrite H2; reflexivity.
Qed.

Lemma mapM_err {A B} (f : A -> res B) l e :
  mapM f l = Err e -> exists x, In x l /\ f x = Err e.
Proof.
  induction l as [|x r IH]; simpl; [discriminate|].
  destruct (f x) as [b|e'] eqn:Ef; simpl.
  - destruct (mapM f r) as [zs|e''] eqn:Er; simpl; [discriminate|].
    intros H; injection H as ->. destruct (IH eq_refl) as (y & Hy & Hf).
    exists y; split; [right; exact Hy|exact Hf].
  - intros H; injection H as ->. exists x; split; [left; reflexivity|exact Ef].
Qed.

Lemma assoc_In {B} k (d : list (string * B)) v : assoc k d = Some v -> In (k, v) d.
Proof.
  induction d as [|[k' v'] r IH]; simpl; [discriminate|].
  destruct (String.eqb k k') eqn:E.
  - apply String.eqb_eq in E; subst. intros H; injection H as ->; left; reflexivity.
  - intros H; right; apply IH; exact H.
Qed.

Lemma assoc_None {B} k (d : list (string * B)) : assoc k d = None <-> ~ In k (map fst d).
Proof.
  induction d as [|[k' v'] r IH]; simpl; [tauto|].
  destruct (String.eqb k k') eqn:E.
  - apply String.eqb_eq in E; subst. split; [discriminate|intros H; exfalso; apply H; left; reflexivity].
  - apply String.eqb_neq in E. rewrite IH. split; intros H.
    + intros [H1|H1]; [apply E; symmetry; exact H1|exact (H H1)].
    + intros H1; apply H; right; exact H1.
Qed.

Section DedupBy.
  Context {A : Type} (key : A -> string).

  Lemma dedup_by_aux_In seen l x :
    In x (dedup_by_aux key seen l) -> In x l /\ ~ In (key x) seen.
  Proof.
    revert seen; induction l as [|y r IH]; simpl; intros seen; [tauto|].
    destruct (mem (key y) seen) eqn:E.
    - intros H; apply IH in H. tauto.
    - apply mem_false in E. simpl. intros [<-|H]; [tauto|].
      apply IH in H. destruct H as [H1 H2]. split; [right; exact H1|].
      intros H3; apply H2; right; exact H3.
  Qed.

  Lemma dedup_by_aux_keys seen l k :
    In k (map key (dedup_by_aux key seen l)) <-> In k (map key l) /\ ~ In k seen.
  Proof.
    revert seen; induction l as [|y r IH]; simpl; intros seen; [tauto|].
    destruct (mem (key y) seen) eqn:E.
    - apply mem_In in E. rewrite IH. split; [tauto|]. intros [[H|H] H2]; [subst; tauto|tauto].
    - apply mem_false in E. simpl. rewrite IH. simpl. split.
      + intros [H|[H1 H2]]; [subst; tauto|tauto].
      + intros [[H|H] H2]; [left; exact H|].
        destruct (string_dec (key y) k) as [e|n]; [left; exact e|right; tauto].
  Qed.

  Lemma dedup_by_aux_NoDup seen l : NoDup (map key (dedup_by_aux key seen l)).
  Proof.
    revert seen; induction l as [|y r IH]; simpl; intros seen; [constructor|].
    destruct (mem (key y) seen); [apply IH|]. simpl. constructor; [|apply IH].
    intros H. apply dedup_by_aux_keys in H. simpl in H. tauto.
  Qed.

  (** The kept elements are exactly the first occurrences of their key. *)
  Lemma dedup_by_aux_first seen l x :
    In x (dedup_by_aux key seen l) ->
    exists pre post, l = pre ++ x :: post /\ ~ In (key x) (map key pre) /\ ~ In (key x) seen.
  Proof.
    revert seen; induction l as [|y r IH]; simpl; intros seen; [tauto|].
    destruct (mem (key y) seen) eqn:E.
    - intros H. destruct (IH _ H) as (pre & post & -> & H1 & H2).
      exists (y :: pre), post. split; [reflexivity|]. split; [|exact H2].
      simpl. intros [H3|H3]; [|tauto]. apply mem_In in E. rewrite H3 in E; tauto.
    - simpl. intros [<-|H].
      + exists [], r. apply mem_false in E. split; [reflexivity|]. split; [tauto|exact E].
      + destruct (IH _ H) as (pre & post & -> & H1 & H2). simpl in H2.
        exists (y :: pre), post. split; [reflexivity|]. split; simpl; tauto.
  Qed.

  Lemma dedup_by_aux_idem seen l :
    dedup_by_aux key seen (dedup_by_aux key seen l) = dedup_by_aux key seen l.
  Proof.
    revert seen; induction l as [|y r IH]; simpl; intros seen; [reflexivity|].
    destruct (mem (key y) seen) eqn:E; [apply IH|].
    simpl. rewrite E. f_equal. apply IH.
  Qed.
End DedupBy.

Lemma find_split {A} (f : A -> bool) l x :
  find f l = Some x <->
  exists pre post, l = pre ++ x :: post /\ f x = true /\ forall y, In y pre -> f y = false.
Proof.
  induction l as [|y r IH]; simpl.
  - split; [discriminate|]. intros (pre & post & H & _). destruct pre; discriminate.
  - destruct (f y) eqn:E.
    + split.
      * intros H; injection H as <-. exists [], r. split; [reflexivity|]. split; [exact E|intros ? []].
      * intros (pre & post & H & Hx & Hp). destruct pre as [|z pre].
        -- injection H as -> _. reflexivity.
        -- injection H as -> _. rewrite (Hp z (or_introl eq_refl)) in E. discriminate.
    + rewrite IH. split.
      * intros (pre & post & -> & Hx & Hp). exists (y :: pre), post.
        split; [reflexivity|]. split; [exact Hx|]. intros z [<-|Hz]; [exact E|auto].
      * intros (pre & post & H & Hx & Hp). destruct pre as [|z pre].
        -- injection H as -> _. rewrite Hx in E; discriminate.
        -- injection H as -> ->. exists pre, post. split; [reflexivity|]. split; [exact Hx|].
           intros w Hw; apply Hp; right; exact Hw.
Qed.

Lemma find_None {A} (f : A -> bool) l : find f l = None <-> forall x, In x l -> f x = false.
Proof.
  split.
  - intros H x Hx. exact (find_none f l H x Hx).
  - induction l as [|y r IH]; simpl; intros H; [reflexivity|].
    rewrite (H y (or_introl eq_refl)). apply IH. intros x Hx; apply H; right; exact Hx.
Qed.

Lemma assoc_split {B} k (d : list (string * B)) v :
  assoc k d = Some v <-> exists pre post, d = pre ++ (k, v) :: post /\ ~ In k (map fst pre).
Proof.
  induction d as [|[k' v'] r IH]; simpl.
  - split; [discriminate|]. intros (pre & post & H & _). destruct pre; discriminate.
  - destruct (String.eqb k k') eqn:E.
    + apply String.eqb_eq in E; subst k'. split.
      * intros H; injection H as ->. exists [], r. split; [reflexivity|intros []].
      * intros (pre & post & H & Hp). destruct pre as [|[z w] pre].
        -- injection H as -> _. reflexivity.
        -- injection H as -> _. exfalso; apply Hp; left; reflexivity.
    + apply String.eqb_neq in E. rewrite IH. split.
      * intros (pre & post & -> & Hp). exists ((k', v') :: pre), post. split; [reflexivity|].
        simpl. intros [H|H]; [apply E; symmetry; exact H|exact (Hp H)].
      * intros (pre & post & H & Hp). destruct pre as [|[z w] pre].
        -- injection H as -> _. exfalso; apply E; reflexivity.
        -- injection H as _ _ H. exists pre, post. split; [exact H|].
           intros H2; apply Hp; right; exact H2.
Qed.

(** Two results agree up to reordering. *)
Definition res_perm {A} (a b : res (list A)) : Prop :=
  match a, b with
  | Ok x, Ok y => Permutation x y
  | Err e, Err e' => e = e'
  | _, _ => False
  end.

Lemma filter_perm {A} (f : A -> bool) l l' : Permutation l l' -> Permutation (filter f l) (filter f l').
Proof.
  induction 1; simpl; try (destruct (f x)); try (destruct (f y)); auto.
  - apply perm_swap.
  - eapply perm_trans; eassumption.
Qed.

Lemma filterM_total {A} (f : A -> res bool) l :
  (forall x, In x l -> exists b, f x = Ok b) ->
  filterM f l = Ok (filter (fun x => match f x with Ok true => true | _ => false end) l).
Proof. intros H. apply filterM_ok. split; [exact H|reflexivity]. Qed.

Lemma filterM_perm {A} (f : A -> res bool) E l l' :
  (forall x e, f x = Err e -> e = E) -> Permutation l l' -> res_perm (filterM f l) (filterM f l').
Proof.
  intros HE HP. unfold res_perm.
  destruct (filterM f l) as [a|e] eqn:E1.
  - apply filterM_ok in E1. destruct E1 as [H ->].
    rewrite (filterM_total f l').
    + apply filter_perm, HP.
    + intros x Hx. apply H. eapply Permutation_in; [apply Permutation_sym; exact HP|exact Hx].
  - destruct (filterM f l') as [b|e'] eqn:E2.
    + apply filterM_ok in E2. destruct E2 as [H _].
      apply filterM_err in E1. destruct E1 as (x & Hx & Hf).
      destruct (H x) as [b' Hb]; [eapply Permutation_in; eassumption|]. congruence.
    + apply filterM_err in E1. apply filterM_err in E2.
      destruct E1 as (x & _ & Hx). destruct E2 as (y & _ & Hy).
      apply HE in Hx. apply HE in Hy. congruence.
Qed.

Lemma concatM_total {A B} (f : A -> res (list B)) l :
  (forall x, In x l -> exists b, f x = Ok b) ->
  concatM f l = Ok (flat_map (fun x => match f x with Ok b => b | Err _ => [] end) l).
Proof. intros H. apply concatM_eq. intros x Hx. destruct (H x Hx) as [b Hb]. rewrite Hb. reflexivity. Qed.

Lemma flat_map_perm {A B} (f : A -> list B) l l' :
  Permutation l l' -> Permutation (flat_map f l) (flat_map f l').
Proof.
  induction 1; simpl; auto.
  - apply Permutation_app_head; assumption.
  - rewrite !app_assoc. apply Permutation_app_tail, Permutation_app_comm.
  - eapply perm_trans; eassumption.
Qed.

Lemma concatM_perm {A B} (f : A -> res (list B)) E l l' :
  (forall x e, f x = Err e -> e = E) -> Permutation l l' -> res_perm (concatM f l) (concatM f l').
Proof.
  intros HE HP. unfold res_perm.
  destruct (concatM f l) as [a|e] eqn:E1.
  - pose proof (concatM_ok_all _ _ _ E1) as H. rewrite (concatM_total f l H) in E1. injection E1 as <-.
    rewrite (concatM_total f l').
    + apply flat_map_perm, HP.
    + intros x Hx. apply H. eapply Permutation_in; [apply Permutation_sym; exact HP|exact Hx].
  - destruct (concatM f l') as [b|e'] eqn:E2.
    + pose proof (concatM_ok_all _ _ _ E2) as H.
      apply concatM_err in E1. destruct E1 as (x & Hx & Hf).
      destruct (H x) as [b' Hb]; [eapply Permutation_in; eassumption|]. congruence.
    + apply concatM_err in E1. apply concatM_err in E2.
      destruct E1 as (x & _ & Hx). destruct E2 as (y & _ & Hy).
      apply HE in Hx. apply HE in Hy. congruence.
Qed.

Lemma filter_nil {A} (f : A -> bool) l : filter f l = [] <-> forall x, In x l -> f x = false.
Proof.
  induction l as [|y r IH]; simpl; [split; [intros _ ? []|reflexivity]|].
  destruct (f y) eqn:E.
  - split; [discriminate|]. intros H. rewrite (H y (or_introl eq_refl)) in E. discriminate.
  - rewrite IH. split; [intros H x [<-|Hx]; auto|intros H x Hx; auto].
Qed.

Lemma filter_one {A} (f : A -> bool) l x :
  filter f l = [x] <->
  exists l1 l2, l = l1 ++ x :: l2 /\ f x = true /\ forall y, In y (l1 ++ l2) -> f y = false.
Proof.
  induction l as [|y r IH]; simpl.
  - split; [discriminate|]. intros (l1 & l2 & H & _). destruct l1; discriminate.
  - destruct (f y) eqn:E.
    + split.
      * intros H; injection H as -> H. exists [], r. split; [reflexivity|]. split; [exact E|].
        simpl. apply filter_nil; exact H.
      * intros (l1 & l2 & H & Hx & Hn). destruct l1 as [|z l1].
        -- injection H as -> ->. f_equal. apply filter_nil. exact Hn.
        -- injection H as -> ->. rewrite (Hn z) in E; [discriminate|left; reflexivity].
    + rewrite IH. split.
      * intros (l1 & l2 & -> & Hx & Hn). exists (y :: l1), l2. split; [reflexivity|]. split; [exact Hx|].
        intros z [<-|Hz]; auto.
      * intros (l1 & l2 & H & Hx & Hn). destruct l1 as [|z l1].
        -- injection H as -> ->. rewrite Hx in E; discriminate.
        -- injection H as -> ->. exists l1, l2. split; [reflexivity|]. split; [exact Hx|].
           intros w Hw; apply Hn; right; exact Hw.
Qed.

Lemma filter_many {A} (f : A -> bool) l :
  (exists x y r, filter f l = x :: y :: r) <->
  exists l1 x l2 y l3, l = l1 ++ x :: l2 ++ y :: l3 /\ f x = true /\ f y = true.
Proof.
  split.
  - intros (x & y & r & H).
    assert (Hx : find f l = Some x).
    { clear -H. induction l as [|z l IH]; simpl in *; [discriminate|].
      destruct (f z) eqn:E; [injection H as -> _; reflexivity|auto]. }
    apply find_split in Hx. destruct Hx as (pre & post & -> & Hfx & Hpre).
    rewrite filter_app in H. simpl in H. rewrite Hfx in H.
    replace (filter f pre) with (@nil A) in H by (symmetry; apply filter_nil; exact Hpre).
    simpl in H. injection H as H.
    assert (Hy : find f post = Some y).
    { clear -H. induction post as [|z l IH]; simpl in *; [discriminate|].
      destruct (f z) eqn:E; [injection H as -> _; reflexivity|auto]. }
    apply find_split in Hy. destruct Hy as (p2 & q & -> & Hfy & _).
    exists pre, x, p2, y, q. auto.
  - intros (l1 & x & l2 & y & l3 & -> & Hx & Hy).
    rewrite filter_app. simpl. rewrite Hx, filter_app. simpl. rewrite Hy.
    destruct (filter f l1) as [|a [|b q]]; simpl; eauto.
    destruct (filter f l2) as [|b q]; simpl; eauto.
Qed.

Lemma filter_all {A} (f : A -> bool) l : (forall x, In x l -> f x = true) -> filter f l = l.
Proof.
  induction l as [|x r IH]; simpl; intros H; [reflexivity|].
  rewrite (H x (or_introl eq_refl)), IH; [reflexivity|]. intros y Hy; apply H; right; exact Hy.
Qed.
