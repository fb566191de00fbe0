(** C80: a grant decides whether a query is answered, not what the answer is. *)
From Coq Require Import List String Ascii Bool Arith Lia QArith.
From Verif Require Import PyBase PyStr PyList Core_Model Access_Spec Access_Proofs Access_Props AccessFilter_Model JoinGraph_Model JoinGraph_Props JoinOrder_Model JoinOrder_Nx Rel_Model Agg_Model Agg_Props Clause_Model Query_Model Query_Spec Query_Props Users_Model.
Import ListNotations.
Local Close Scope Q_scope.
Local Open Scope nat_scope.
Local Open Scope string_scope.
Local Open Scope list_scope.

(** ** Two runs of the generator with different lookups *)
Section Two.
  Context {V C : Type}.
  (** a relation between two results that the steps of the generator keep: both the same, or never different when both are answers *)
  Variable X : forall A, res A -> res A -> Prop.
  Hypothesis X_refl : forall A (a : res A), X A a a.
  Hypothesis X_bind : forall A B (a b : res A) (k k' : A -> res B), X A a b -> (forall x, a = Ok x -> b = Ok x -> X B (k x) (k' x)) -> X B (bind a k) (bind b k').

  Lemma X_mapM {A B} (f g : A -> res B) l : (forall x, In x l -> X B (f x) (g x)) -> X _ (mapM f l) (mapM g l).
  Proof.
    induction l as [|x l IH]; intros H; [apply X_refl|]. cbn [mapM]. apply X_bind; [apply H; now left|]. intros y _ _. apply X_bind; [apply IH; intros z Z; apply H; now right|]. intros ys _ _. apply X_refl.
  Qed.
  Lemma X_concatM {A B} (f g : A -> res (list B)) l : (forall x, In x l -> X _ (f x) (g x)) -> X _ (concatM f l) (concatM g l).
  Proof.
    induction l as [|x l IH]; intros H; [apply X_refl|]. cbn [concatM]. apply X_bind; [apply H; now left|]. intros y _ _. apply X_bind; [apply IH; intros z Z; apply H; now right|]. intros ys _ _. apply X_refl.
  Qed.

  Variables gf gf' : string -> res qfield.
  Variable N : string -> Prop.
  Hypothesis gf_X : forall n, N n -> X _ (gf n) (gf' n).
  Hypothesis gf_N : forall n f m, N n -> gf n = Ok f -> In m (qf_refs f) -> N m.
  Variable w : warehouse.
  Variables pk pk' : string -> option string.
  Hypothesis pk_eq : forall v, pk v = pk' v.
  Variable as_list : list string -> list string.
  Variable valid : qfield -> V -> res unit.
  Variable compare : qfield -> V -> res (list C).
  Variables access access' : string -> res (list (string * list C)).
  Hypothesis access_X : forall v, X _ (access v) (access' v).
  Hypothesis access_N : forall v fs n cs, access v = Ok fs -> In (n, cs) fs -> N n.

  Definition refs_N (f : qfield) : Prop := forall m, In m (qf_refs f) -> N m.
  Lemma X_required fuel f : refs_N f -> X _ (required_views gf fuel f) (required_views gf' fuel f).
  Proof.
    revert f. induction fuel as [|n IH]; intros f R; [apply X_refl|]. cbn [required_views]. apply X_bind; [|intros; apply X_refl]. apply X_concatM. intros m M. apply X_bind; [apply gf_X; auto|]. intros h G _. apply IH. intros m' M'. eapply gf_N; eauto.
  Qed.
  Lemma pk_id_eq v : pk_id pk v = pk_id pk' v.
  Proof. unfold pk_id. now rewrite pk_eq. Qed.
  Lemma fpk_of_eq base js : fpk_of pk base js = fpk_of pk' base js.
  Proof. unfold fpk_of. destruct (functional_pk base js); [now rewrite pk_id_eq|reflexivity]. Qed.
  Lemma X_sql fuel k f : refs_N f -> X _ (sql_query gf w pk fuel k f) (sql_query gf' w pk' fuel k f).
  Proof.
    revert f. induction fuel as [|n IH]; intros f R; cbn [sql_query]; rewrite <- (pk_id_eq (qf_view f)); destruct (qf_body f); try apply X_refl. apply X_bind; [|intros; apply X_refl]. apply X_mapM. intros m M. apply X_bind; [apply gf_X; auto|]. intros h G _. apply IH. intros m' M'. eapply gf_N; eauto.
  Qed.
  Lemma X_unique fuel fs : (forall f, In f fs -> refs_N f) -> X _ (unique_views gf as_list fuel fs) (unique_views gf' as_list fuel fs).
  Proof. intros H. unfold unique_views. apply X_bind; [|intros; apply X_refl]. apply X_concatM. intros f F. apply X_required. auto. Qed.
  Lemma X_access fuel views : X _ (get_access_filter gf w pk access fuel views) (get_access_filter gf' w pk' access' fuel views).
  Proof.
    unfold get_access_filter. apply X_bind; [|intros; apply X_refl]. apply X_concatM. intros v _. apply X_bind; [apply access_X|]. intros fs E _. apply X_mapM. intros [n cs] I. cbn [fst snd]. assert (Nn : N n) by (eapply access_N; eauto). apply X_bind; [auto|]. intros f G _. apply X_bind; [apply X_sql; intros m M; eapply gf_N; eauto|intros; apply X_refl].
  Qed.
  Lemma X_leaf l : N (fst l) -> X _ (leaf_ok gf valid l) (leaf_ok gf' valid l).
  Proof. intros H. unfold leaf_ok. apply X_bind; [auto|intros; apply X_refl]. Qed.
  Lemma X_comparisons fuel k l : N (fst l) -> X _ (comparisons gf w pk compare fuel k l) (comparisons gf' w pk' compare fuel k l).
  Proof. intros H. unfold comparisons. apply X_bind; [auto|]. intros f G _. apply X_bind; [apply X_sql; intros m M; eapply gf_N; eauto|intros; apply X_refl]. Qed.
  Section Tree.
    Notation tree := (ftree (sexp * C) (string * V)).
    Fixpoint tree_ind' (P : tree -> Prop) (HL : forall l, P (FLeaf l)) (HT : forall ts, P (FLit ts)) (HG : forall op cs, (forall c, In c cs -> P c) -> P (FGroup op cs)) (t : tree) : P t :=
      match t with
      | FLeaf l => HL l
      | FLit ts => HT ts
      | FGroup op cs => HG op cs ((fix go (l : list tree) : forall c, In c l -> P c :=
          match l with [] => fun c I => match I with end | x :: r => fun c I => match I with or_introl E => eq_ind x P (tree_ind' P HL HT HG x) c E | or_intror I' => go r c I' end end) cs)
      end.
  End Tree.
  Lemma X_go (f f' : ftree (sexp * C) (string * V) -> res unit) l : (forall c, In c l -> X _ (f c) (f' c)) ->
    X _ ((fix go (l : list (ftree (sexp * C) (string * V))) : res unit := match l with [] => Ok tt | x :: r => _ <- f x ;; go r end) l)
        ((fix go (l : list (ftree (sexp * C) (string * V))) : res unit := match l with [] => Ok tt | x :: r => _ <- f' x ;; go r end) l).
  Proof. induction l as [|x r IHr]; intros IH; [apply X_refl|]. apply X_bind; [apply IH; now left|]. intros _ _ _. apply IHr. intros c I. apply IH. now right. Qed.
  Lemma X_validate (t : ftree (sexp * C) (string * V)) : (forall n, In n (tree_fields t) -> N n) -> X _ (validate (leaf_ok gf valid) t) (validate (leaf_ok gf' valid) t).
  Proof.
    induction t as [l|ts|op cs IH] using tree_ind'; intros H; [apply X_leaf; apply H; now left|apply X_refl|]. cbn [validate]. destruct cs as [|c0 cs0]; [apply X_refl|]. apply X_bind; [|intros; apply X_refl].
    apply (X_go (validate (leaf_ok gf valid)) (validate (leaf_ok gf' valid)) (c0 :: cs0)). intros c I. apply IH; [exact I|]. intros n J. apply H. cbn [tree_fields]. apply in_flat_map. eauto.
  Qed.
  Lemma X_group fuel k (t : ftree (sexp * C) (string * V)) : (forall n, In n (tree_fields t) -> N n) -> X _ (group_sql_query (comparisons gf w pk compare fuel k) t) (group_sql_query (comparisons gf' w pk' compare fuel k) t).
  Proof.
    induction t as [l|ts|op cs IH] using tree_ind'; intros H; [|apply X_refl|].
    - cbn [group_sql_query]. unfold criterion. apply X_bind; [apply X_comparisons; apply H; now left|intros; apply X_refl].
    - cbn [group_sql_query]. apply X_bind; [|intros; apply X_refl]. cbn [tree_fields] in H. revert IH H. induction cs as [|x r IHr]; intros IH H; [apply X_refl|]. apply X_bind.
      + apply IH; [now left|]. intros n I. apply H. cbn [flat_map]. apply in_or_app. now left.
      + intros y _ _. apply X_bind; [|intros; apply X_refl]. apply IHr; [intros c I; apply IH; now right|]. intros n I. apply H. cbn [flat_map]. apply in_or_app. now right.
  Qed.
  Lemma X_clause fuel k a (fs : list (ftree (sexp * C) (string * V))) : (forall t n, In t fs -> In n (tree_fields t) -> N n) -> X _ (clause_of gf w pk valid compare fuel k a fs) (clause_of gf' w pk' valid compare fuel k a fs).
  Proof.
    intros H. unfold clause_of, where_sql. apply X_bind; [|intros; apply X_refl]. apply X_mapM. intros t T. unfold filter_sql. assert (Tn : forall n, In n (tree_fields t) -> N n).
    { intros n I. unfold parse_filter_object in T. apply in_app_or in T. destruct T as [T|T]; [|eapply H; eauto]. destruct a as [ts|]; [|destruct T]. destruct T as [<-|[]]. destruct I. }
    apply X_bind; [now apply X_validate|]. intros _ _ _. destruct t; try apply X_refl; now apply X_group.
  Qed.
  Lemma X_column fuel k n : N n -> X _ (column gf w pk fuel k n) (column gf' w pk' fuel k n).
  Proof. intros H. unfold column. apply X_bind; [auto|]. intros f G _. apply X_sql. intros m M. eapply gf_N; eauto. Qed.
  Lemma X_generate g comp topo sp fuel (r : request V C) : (forall n, In n (lookup_names r) -> N n) ->
    X _ (generate gf w pk g comp topo sp as_list valid compare access fuel r) (generate gf' w pk' g comp topo sp as_list valid compare access' fuel r).
  Proof.
    intros H. assert (D : forall n, In n (rq_dimensions r ++ rq_metrics r) -> N n) by (intros n I; apply H; unfold lookup_names; rewrite !in_app_iff in *; tauto).
    assert (Wh : forall t n, In t (rq_where r) -> In n (tree_fields t) -> N n).
    { intros t n T I. apply H. unfold lookup_names. rewrite !in_app_iff. right. right. left. apply in_flat_map. eauto. }
    assert (Hv : forall t n, In t (rq_having r) -> In n (tree_fields t) -> N n).
    { intros t n T I. apply H. unfold lookup_names. rewrite !in_app_iff. right. right. right. left. apply in_flat_map. eauto. }
    unfold generate. apply X_bind; [apply X_mapM; auto|]. intros fs M _.
    assert (FR : forall f, In f fs -> refs_N f).
    { intros f F m I. apply mapM_ok in M. destruct (Forall2_In_r _ _ _ M f F) as (n & Nn & G). eapply gf_N; eauto. }
    apply X_bind; [now apply X_unique|]. intros views _ _. apply X_bind; [apply X_access|]. intros acc A _.
    assert (AR : forall f, In f (snd acc) -> refs_N f).
    { intros f F. unfold get_access_filter in A. apply bind_ok in A. destruct A as (rs & R & A). assert (F' : In f (map snd rs)) by (destruct (flat_map fst rs); injection A as <-; [destruct F|exact F]). apply in_map_iff in F'. destruct F' as ([cs f'] & E & I). cbn [snd] in E. subst f'.
      apply (concatM_ok_In _ _ _ R) in I. destruct I as (v & zs & _ & Z & I). apply bind_ok in Z. destruct Z as (ns & An & Z). apply mapM_ok in Z. destruct (Forall2_In_r _ _ _ Z _ I) as ([n cs'] & Nn & E). cbn [fst snd] in E. apply bind_ok in E. destruct E as (f' & G & E). apply bind_ok in E. destruct E as (e & _ & E). injection E as _ <-. intros m Im. eapply gf_N; [|exact G|exact Im]. eapply access_N; eauto. }
    apply X_bind; [apply X_unique; intros f F; apply in_app_or in F; destruct F; auto|]. intros req _ _. apply X_bind; [apply X_refl|]. intros js _ _. apply X_bind; [apply X_refl|]. intros base _ _. cbv zeta. rewrite <- (fpk_of_eq base js).
    apply X_bind; [apply X_mapM; intros n I; apply X_column; auto|]. intros sel _ _. apply X_bind; [apply X_clause; exact Wh|]. intros wh _ _. apply X_bind; [apply X_mapM; intros n I; apply X_column; apply D; apply in_or_app; now left|]. intros gr _ _. apply X_bind; [apply X_clause; exact Hv|]. intros hv _ _. apply X_refl.
  Qed.
End Two.
(** the first is an answer: so is the second, the same *)
Definition Le (A : Type) (a b : res A) : Prop := forall x, a = Ok x -> b = Ok x.
(** both are answers: they are the same *)
Definition Agree (A : Type) (a b : res A) : Prop := forall x y, a = Ok x -> b = Ok y -> x = y.
Lemma Le_refl A (a : res A) : Le A a a. Proof. now intros x. Qed.
Lemma Agree_refl A (a : res A) : Agree A a a. Proof. intros x y E F. rewrite E in F. now injection F. Qed.
Lemma Le_bind A B (a b : res A) (k k' : A -> res B) : Le A a b -> (forall x, a = Ok x -> b = Ok x -> Le B (k x) (k' x)) -> Le B (bind a k) (bind b k').
Proof. intros L K y E. apply bind_ok in E. destruct E as (x & A1 & E). pose proof (L x A1) as A2. rewrite A2. cbn [bind]. exact (K x A1 A2 y E). Qed.
Lemma Agree_bind A B (a b : res A) (k k' : A -> res B) : Agree A a b -> (forall x, a = Ok x -> b = Ok x -> Agree B (k x) (k' x)) -> Agree B (bind a k) (bind b k').
Proof. intros L K y z E F. apply bind_ok in E. destruct E as (x & A1 & E). apply bind_ok in F. destruct F as (x' & A2 & F). pose proof (L x x' A1 A2) as <-. exact (K x A1 A2 y z E F). Qed.

(** ** What a user finds *)
Definition with_user (p : project) (u : option user_attrs) : project := Project (p_grants p) (p_views p) (p_dashboards p) u.
(** every grant named by a view or a field exists *)
Definition declared (p : project) : Prop :=
  forall v, In v (p_views p) -> (forall n, In n (vd_grants v) -> In n (map g_name (p_grants p))) /\
    forall fd n, In fd (vd_fields v) -> In n (fd_grants fd) -> In n (map g_name (p_grants p)).

Definition may (p : project) (gs : list string) : bool := match can_access_object p gs with Ok b => b | Err _ => false end.
Lemma may_spec p gs : may p gs = true <-> Access_Spec.permitted p gs.
Proof. rewrite <- can_access_object_true. unfold may. destruct (can_access_object p gs) as [[]|]; split; congruence. Qed.
Lemma may_ok p gs : (forall n, In n gs -> In n (map g_name (p_grants p))) -> can_access_object p gs = Ok (may p gs).
Proof.
  intros H. unfold may. destruct (can_access_object p gs) as [b|e] eqn:E; [reflexivity|]. apply can_access_object_err in E. destruct E as [_ [_ (n & N & K)]]. now contradict K; apply H.
Qed.
Definition seen_views (p : project) : list view_def := filter (fun v => may p (vd_grants v)) (p_views p).
Definition seen_fields (p : project) (v : view_def) : list field_obj :=
  flat_map (fun fd => if may p (fd_grants fd) && may p (vd_grants v) then expand_field v fd true else []) (vd_fields v).
Section Declared.
  Variable p : project.
  Hypothesis D : declared p.
  Lemma views_seen : views p true = Ok (seen_views p).
  Proof.
    unfold views, seen_views. rewrite filterM_total.
    - f_equal. apply filter_ext_in. intros v I. unfold can_access_view. rewrite (may_ok p _ (proj1 (D v I))). cbn [bind]. rewrite andb_true_r. now destruct (may p (vd_grants v)).
    - intros v I. unfold can_access_view. rewrite (may_ok p _ (proj1 (D v I))). cbn [bind]. eauto.
  Qed.
  Lemma view_fields_seen v : In v (p_views p) -> view_fields p v true true = Ok (seen_fields p v).
  Proof.
    intros I. unfold view_fields, view_all_fields. rewrite (concatM_eq _ (fun fd => if may p (fd_grants fd) && may p (vd_grants v) then expand_field v fd true else [])); [reflexivity|].
    intros fd F. unfold can_access_field, can_access_view. rewrite (may_ok p _ (proj1 (D v I))). rewrite (may_ok p (fd_grants fd)); [reflexivity|]. intros n. now apply (proj2 (D v I)).
  Qed.
  Lemma get_view_seen n : get_view p n = match find (fun v => String.eqb (vd_name v) n) (seen_views p) with Some v => Ok v | None => Err AccessDenied end.
  Proof. unfold get_view. rewrite views_seen. reflexivity. Qed.
  Lemma fields_seen_all : fields p None true true = Ok (flat_map (seen_fields p) (seen_views p)).
  Proof. cbn [fields]. rewrite views_seen. cbn [bind]. apply concatM_eq. intros v I. apply view_fields_seen. now apply filter_In in I. Qed.
  Lemma fields_seen_view n : fields p (Some n) true true = match find (fun v => String.eqb (vd_name v) n) (seen_views p) with Some v => Ok (seen_fields p v) | None => Err AccessDenied end.
  Proof.
    cbn [fields]. rewrite get_view_seen. destruct (find _ _) as [v|] eqn:E; [|reflexivity]. cbn [bind]. apply view_fields_seen. apply find_some in E. destruct E as [E _]. now apply filter_In in E.
  Qed.
End Declared.
Lemma declared_user p u : declared p -> declared (with_user p u). Proof. intros H. exact H. Qed.
(** a list with some elements left out *)
Inductive sub {A : Type} : list A -> list A -> Prop :=
| sub_nil : sub [] []
| sub_skip x l m : sub l m -> sub l (x :: m)
| sub_keep x l m : sub l m -> sub (x :: l) (x :: m).
Lemma sub_refl {A} (l : list A) : sub l l. Proof. induction l; [constructor|now apply sub_keep]. Qed.
Lemma sub_none {A} (l : list A) : sub [] l. Proof. induction l; [constructor|now apply sub_skip]. Qed.
Lemma sub_app {A} (a b c d : list A) : sub a b -> sub c d -> sub (a ++ c) (b ++ d).
Proof. induction 1; intros K; cbn; [exact K|apply sub_skip; auto|apply sub_keep; auto]. Qed.
Lemma sub_filter {A} (P : A -> bool) l m : sub l m -> sub (filter P l) (filter P m).
Proof. induction 1; cbn; [constructor| |]; destruct (P x); auto; [now apply sub_skip|now apply sub_keep]. Qed.
Lemma sub_flat_map {A B} (f g : A -> list B) l : (forall x, In x l -> sub (f x) (g x)) -> sub (flat_map f l) (flat_map g l).
Proof. induction l as [|x l IH]; intros H; [constructor|]. cbn. apply sub_app; [apply H; now left|apply IH; intros y Y; apply H; now right]. Qed.
Lemma sub_In {A} (l m : list A) x : sub l m -> In x l -> In x m.
Proof. induction 1; cbn; intros I; [destruct I|auto|destruct I; auto]. Qed.
Lemma sub_one {A} (l : list A) x : sub l [x] -> l = [] \/ l = [x].
Proof. intros H. inversion H as [|? ? ? K|? ? ? K]; subst; inversion K; auto. Qed.
Lemma sub_empty {A} (l : list A) : sub l [] -> l = [].
Proof. intros H. now inversion H. Qed.
(** the first user sees no more than the second *)
Definition below (p q : project) : Prop :=
  p_views p = p_views q /\
  (forall v, In v (p_views p) -> may p (vd_grants v) = true -> may q (vd_grants v) = true) /\
  (forall v fd, In v (p_views p) -> In fd (vd_fields v) -> may p (fd_grants fd) = true -> may q (fd_grants fd) = true).
Lemma below_fields p q v : below p q -> In v (p_views p) -> sub (seen_fields p v) (seen_fields q v).
Proof.
  intros (_ & Bv & Bf) I. unfold seen_fields. apply sub_flat_map. intros fd F. destruct (may p (fd_grants fd)) eqn:E1; [|apply sub_none]. destruct (may p (vd_grants v)) eqn:E2; [|apply sub_none]. rewrite (Bf v fd I F E1), (Bv v I E2). apply sub_refl.
Qed.
Lemma below_all p q : below p q -> sub (flat_map (seen_fields p) (seen_views p)) (flat_map (seen_fields q) (seen_views q)).
Proof.
  intros B. pose proof B as (E & Bv & Bf). unfold seen_views. rewrite <- E.
  assert (K : forall l, (forall v, In v l -> In v (p_views p)) -> sub (flat_map (seen_fields p) (filter (fun v => may p (vd_grants v)) l)) (flat_map (seen_fields q) (filter (fun v => may q (vd_grants v)) l))).
  { induction l as [|v l IH]; intros H; [constructor|]. cbn [filter]. assert (IH' := IH (fun v I => H v (or_intror I))). assert (I := H v (or_introl eq_refl)). destruct (may p (vd_grants v)) eqn:M.
    - rewrite (Bv v I M). cbn [flat_map]. apply sub_app; [now apply below_fields|exact IH'].
    - destruct (may q (vd_grants v)); [|exact IH']. cbn [flat_map]. change (flat_map (seen_fields p) (filter (fun v0 => may p (vd_grants v0)) l)) with ([] ++ flat_map (seen_fields p) (filter (fun v0 => may p (vd_grants v0)) l)). apply sub_app; [apply sub_none|exact IH']. }
  apply K. auto.
Qed.
Lemma find_unique (P : view_def -> bool) n l v : NoDup (map vd_name l) -> In v l -> vd_name v = n -> P v = true -> find (fun v => String.eqb (vd_name v) n) (filter P l) = Some v.
Proof.
  intros ND I E Pv. induction l as [|x l IH]; [destruct I|]. cbn [map] in ND. inversion ND as [|? ? Nx ND']. subst. cbn [filter]. destruct I as [->|I].
  - rewrite Pv. cbn [find]. now rewrite String.eqb_refl.
  - destruct (P x); [|auto]. cbn [find]. destruct (String.eqb_spec (vd_name x) (vd_name v)) as [E|_]; [|auto]. contradict Nx. rewrite E. now apply in_map.
Qed.
Lemma below_find p q n v : below p q -> NoDup (map vd_name (p_views p)) -> find (fun v => String.eqb (vd_name v) n) (seen_views p) = Some v -> find (fun v => String.eqb (vd_name v) n) (seen_views q) = Some v.
Proof.
  intros (E & Bv & _) ND F. apply find_some in F. destruct F as [I En]. apply filter_In in I. destruct I as [I M]. apply String.eqb_eq in En. unfold seen_views. rewrite <- E. now apply find_unique; auto.
Qed.
Lemma seen_expanded p v f : In f (seen_fields p v) -> exists fd, In fd (vd_fields v) /\ stands_for v fd true f /\ may p (fd_grants fd) = true.
Proof.
  intros I. apply in_flat_map in I. destruct I as (fd & F & I). destruct (may p (fd_grants fd)) eqn:E; [|destruct I]. destruct (may p (vd_grants v)); [|destruct I]. exists fd. split; [exact F|]. split; [now apply expand_field_spec|exact E].
Qed.
Lemma equal_count v fd f : stands_for v fd true f -> fst (equal f "count") = true -> alias f = "count".
Proof.
  intros H E. unfold equal in E. change (field_name_parts "count") with (@None string, @None string, "count") in E. cbv beta iota in E.
  remember true as ex eqn:Ex in H. destruct H as [e [K|K]|t K _|i K _ _]; cbn [fo_def fo_dg] in *; [congruence| | |].
  - destruct (fd_kind fd) eqn:Kd; [| |now contradict K]; cbn [fst] in E; apply String.eqb_eq in E; unfold alias; cbn [fo_def]; now rewrite Kd.
  - rewrite K in E. cbn [fst] in E. now apply String.eqb_eq in E.
  - rewrite K in E. cbn [fst] in E. now apply String.eqb_eq in E.
Qed.
Lemma stands_def v fd e f : stands_for v fd e f -> fo_def f = fd /\ fo_view f = vd_name v. Proof. intros []; auto. Qed.

(** a field found by a user is found by every user who sees more, when nobody can mistake its name *)
Lemma found_above p q n f f0 : declared p -> declared q -> declared (with_user p None) -> below p q -> below q (with_user p None) -> NoDup (map vd_name (p_views p)) ->
  get_field (with_user p None) n None = Ok f0 -> (alias f0 = "count" -> fd_grants (fo_def f0) = []) ->
  get_field p n None = Ok f -> get_field q n None = Ok f /\ f = f0.
Proof.
  intros Dp Dq D0 B B0 ND G0 Cn G. pose proof B as (Ev & Bv & Bf). unfold get_field in *. apply bind_ok in G. destruct G as ([nm vn] & Pn & G). rewrite Pn in G0 |- *. cbn [bind fst snd] in *.
  apply bind_ok in G. destruct G as (fs & F & G). apply bind_ok in G0. destruct G0 as (fs0 & F0 & G0).
  assert (NDq : NoDup (map vd_name (p_views q))) by (now rewrite <- Ev).
  assert (K : exists fs', fields q vn true true = Ok fs' /\ sub fs fs' /\ sub fs' fs0 /\
              (forall v, vn = Some v -> exists vd, get_view p v = Ok vd /\ get_view q v = Ok vd /\ get_view (with_user p None) v = Ok vd /\ fs0 = seen_fields (with_user p None) vd /\ fs = seen_fields p vd /\ In vd (p_views p) /\ may p (vd_grants vd) = true)).
  { destruct vn as [v|].
    - rewrite (fields_seen_view p Dp) in F. rewrite (fields_seen_view q Dq). rewrite (fields_seen_view _ D0) in F0. destruct (find _ (seen_views p)) as [vd|] eqn:E; [|discriminate]. injection F as <-.
      pose proof (below_find _ _ _ _ B ND E) as E1. pose proof (below_find _ _ _ _ B0 NDq E1) as E2. rewrite E1. rewrite E2 in F0. injection F0 as <-. exists (seen_fields q vd).
      assert (I : In vd (p_views p) /\ may p (vd_grants vd) = true) by (apply find_some in E; destruct E as [E _]; now apply filter_In in E). destruct I as [I M].
      split; [reflexivity|]. split; [now apply below_fields|]. split; [apply below_fields; [exact B0|now rewrite <- Ev]|]. intros ? [= <-]. exists vd. rewrite (get_view_seen p Dp), (get_view_seen q Dq), (get_view_seen _ D0), E, E1, E2. auto 8.
    - rewrite (fields_seen_all p Dp) in F. rewrite (fields_seen_all q Dq). rewrite (fields_seen_all _ D0) in F0. injection F as <-. injection F0 as <-. eexists. split; [reflexivity|]. split; [now apply below_all|]. split; [now apply below_all|discriminate]. }
  destruct K as (fs' & Fq & S1 & S2 & Kv). rewrite Fq. cbn [bind].
  assert (T1 := sub_filter (fun f => fst (equal f nm)) _ _ S1). assert (T2 := sub_filter (fun f => fst (equal f nm)) _ _ S2).
  destruct (filter (fun f => fst (equal f nm)) fs0) as [|x [|y l]] eqn:Fl0; [| |discriminate G0].
  - apply sub_empty in T2. rewrite T2 in *. apply sub_empty in T1. rewrite T1 in *. cbn [matching_field_handler] in *. destruct vn as [v|]; [|discriminate]. destruct (String.eqb nm "count" && negb (String.eqb v "")); [|discriminate]. destruct (Kv v eq_refl) as (vd & Vp & Vq & V0 & _). rewrite Vp in G. rewrite Vq. rewrite V0 in G0. cbn [bind] in *. split; [exact G|congruence].
  - injection G0 as ->. destruct (sub_one _ _ T2) as [Tq|Tq]; rewrite Tq in *.
    + apply sub_empty in T1. rewrite T1 in *. exfalso. cbn [matching_field_handler] in G. destruct vn as [v|]; [|discriminate]. destruct (String.eqb_spec nm "count") as [->|_]; [|discriminate]. destruct (Kv v eq_refl) as (vd & Vp & Vq & V0 & E0 & E1 & I & M).
      assert (If0 : In f0 (filter (fun f => fst (equal f "count")) fs0)) by (rewrite Fl0; now left). apply filter_In in If0. destruct If0 as [If0 Eq0]. rewrite E0 in If0. destruct (seen_expanded _ _ _ If0) as (fd & Fd & Sf & _). pose proof (equal_count _ _ _ Sf Eq0) as Al. specialize (Cn Al). destruct (stands_def _ _ _ _ Sf) as [Df _]. rewrite Df in Cn.
      assert (If1 : In f0 (filter (fun f => fst (equal f "count")) fs)).
      { apply filter_In. split; [|exact Eq0]. rewrite E1. apply in_flat_map. exists fd. split; [exact Fd|]. rewrite Cn, M. assert (may p [] = true) as -> by (apply may_spec; intros u U n0 []). now apply expand_field_spec. }
      rewrite T1 in If1. destruct If1.
    + destruct (sub_one _ _ T1) as [Tp|Tp]; rewrite Tp in G.
      * exfalso. cbn [matching_field_handler] in G. destruct vn as [v|]; [|discriminate]. destruct (String.eqb_spec nm "count") as [->|_]; [|discriminate]. destruct (Kv v eq_refl) as (vd & Vp & Vq & V0 & E0 & E1 & I & M).
        assert (If0 : In f0 (filter (fun f => fst (equal f "count")) fs0)) by (rewrite Fl0; now left). apply filter_In in If0. destruct If0 as [If0 Eq0]. rewrite E0 in If0. destruct (seen_expanded _ _ _ If0) as (fd & Fd & Sf & _). pose proof (equal_count _ _ _ Sf Eq0) as Al. specialize (Cn Al). destruct (stands_def _ _ _ _ Sf) as [Df _]. rewrite Df in Cn.
        assert (If1 : In f0 (filter (fun f => fst (equal f "count")) fs)).
        { apply filter_In. split; [|exact Eq0]. rewrite E1. apply in_flat_map. exists fd. split; [exact Fd|]. rewrite Cn, M. assert (may p [] = true) as -> by (apply may_spec; intros u U n0 []). now apply expand_field_spec. }
        rewrite Tp in If1. destruct If1.
      * cbn [matching_field_handler] in *. injection G as <-. auto.
Qed.

(** ** C80 *)
Section Answers.
  Context {V C : Type}.
  Variable info : field_obj -> content.
  Variable ids : string -> list jident.
  Variable w : warehouse.
  Variable topo : list vpair -> option (list vpair).
  Variable sp : graph -> string -> string -> option (list string).
  Variable as_list : list string -> list string.
  Variable valid : qfield -> V -> res unit.
  Variable compare : qfield -> V -> res (list C).
  Variable cond : field_obj -> string -> res (list C).
  Variable fuel : nat.
  Variable p : project.
  (** the answer to a request for a user: the SQL of the query *)
  Definition answer (u : option user_attrs) (r : request V C) : res (qsql C) := query_for info ids w topo sp as_list valid compare cond fuel (with_user p u) r.

  (** the names a query comes to: those asked for, those of access filters, and those in the sql of the fields found *)
  Inductive used (r : request V C) : string -> Prop :=
  | used_asked n : In n (lookup_names r) -> used r n
  | used_filter v af : In v (p_views p) -> In af (vd_access_filters v) -> used r (fst af)
  | used_in n f m : used r n -> get_field (with_user p None) n None = Ok f -> In m (di_refs (info f)) -> used r m
  | used_key v fd k m : In v (p_views p) -> In fd (vd_fields v) -> fd_pk fd = true -> stands_for v fd true k -> In m (di_refs (info k)) -> used r m.
  (** each of them names one field of the whole project; and a field of the name count asks for no grant, for it would be replaced *)
  Definition unmistakable (r : request V C) : Prop :=
    forall n, used r n -> exists f, get_field (with_user p None) n None = Ok f /\ (alias f = "count" -> fd_grants (fo_def f) = []).
  (** the two users may see the same views and the same keys, and the access filters have the same values for both *)
  Definition alike (u1 u2 : option user_attrs) : Prop :=
    (forall v, In v (p_views p) -> Access_Spec.permitted (with_user p u1) (vd_grants v) <-> Access_Spec.permitted (with_user p u2) (vd_grants v)) /\
    (forall v fd, In v (p_views p) -> In fd (vd_fields v) -> fd_pk fd = true -> Access_Spec.permitted (with_user p u1) (fd_grants fd) <-> Access_Spec.permitted (with_user p u2) (fd_grants fd)) /\
    (forall v af, In v (p_views p) -> In af (vd_access_filters v) -> user_value (with_user p u1) (snd af) = user_value (with_user p u2) (snd af)).
  (** the second sees every field the first sees *)
  Definition sees_more (u1 u2 : option user_attrs) : Prop :=
    forall v fd, In v (p_views p) -> In fd (vd_fields v) -> Access_Spec.permitted (with_user p u1) (fd_grants fd) -> Access_Spec.permitted (with_user p u2) (fd_grants fd).

  Hypothesis D : declared p.
  Hypothesis ND : NoDup (map vd_name (p_views p)).
  Variable r : request V C.
  Hypothesis UM : unmistakable r.

  Lemma below_everyone u : below (with_user p u) (with_user p None).
  Proof. split; [reflexivity|]. split; intros; apply may_spec; intros u' [=]. Qed.
  Lemma below_refl q : below q q.
  Proof. repeat split; auto. Qed.
  Section Pair.
    Variables u1 u2 : option user_attrs.
    Hypothesis AL : alike u1 u2.
    Notation p1 := (with_user p u1). Notation p2 := (with_user p u2).
    Lemma same_views : seen_views p1 = seen_views p2.
    Proof.
      unfold seen_views. cbn [with_user p_views]. apply filter_ext_in. intros v I. destruct AL as (A1 & _). specialize (A1 v I). rewrite <- !may_spec in A1. destruct (may p1 (vd_grants v)), (may p2 (vd_grants v)); intuition congruence.
    Qed.
    Lemma find_flat_map {A B} (P : B -> bool) (f g : A -> list B) l : (forall x, In x l -> find P (f x) = find P (g x)) -> find P (flat_map f l) = find P (flat_map g l).
    Proof.
      assert (Fa : forall a b : list B, find P (a ++ b) = match find P a with Some x => Some x | None => find P b end) by (intros a b; induction a as [|x a IH]; [reflexivity|]; cbn; destruct (P x); auto).
      induction l as [|x l IH]; intros H; [reflexivity|]. cbn [flat_map]. rewrite !Fa, (H x (or_introl eq_refl)), IH; [reflexivity|]. intros y Y. apply H. now right.
    Qed.
    Lemma same_key vn : primary_key p1 vn = primary_key p2 vn.
    Proof.
      unfold primary_key. rewrite (get_view_seen p1 D), (get_view_seen p2 D), same_views. destruct (find _ (seen_views p2)) as [v|] eqn:E; [|reflexivity]. apply find_some in E. destruct E as [I _]. apply filter_In in I. destruct I as [I M2].
      assert (M1 : may p1 (vd_grants v) = true) by (apply may_spec; apply (proj1 AL v I); now apply may_spec). rewrite (view_fields_seen p1 D v I), (view_fields_seen p2 D v I). unfold seen_fields. apply find_flat_map. intros fd F. rewrite M1, M2, !andb_true_r.
      destruct (fd_pk fd) eqn:K.
      - pose proof (proj1 (proj2 AL) v fd I F K) as A2. rewrite <- !may_spec in A2. assert (may p1 (fd_grants fd) = may p2 (fd_grants fd)) as -> by (destruct (may p1 (fd_grants fd)), (may p2 (fd_grants fd)); intuition congruence). reflexivity.
      - assert (Z : find (fun f => fd_pk (fo_def f)) (expand_field v fd true) = None).
        { destruct (find _ _) as [f|] eqn:Ef; [|reflexivity]. apply find_some in Ef. destruct Ef as [If Kf]. apply expand_field_spec in If. destruct (stands_def _ _ _ _ If) as [Df _]. congruence. }
        destruct (may p1 (fd_grants fd)), (may p2 (fd_grants fd)); rewrite ?Z; reflexivity.
    Qed.
    Lemma same_qfield f : as_qfield info p1 f = as_qfield info p2 f.
    Proof. unfold as_qfield, text_and_refs. now rewrite same_key. Qed.
    Lemma same_gviews : gviews_for ids p1 = gviews_for ids p2.
    Proof. unfold gviews_for. now rewrite (views_seen p1 D), (views_seen p2 D), same_views. Qed.
    Lemma same_get_view vn : get_view p1 vn = get_view p2 vn.
    Proof. now rewrite (get_view_seen p1 D), (get_view_seen p2 D), same_views. Qed.

    Section Relation.
      Variable X : forall A, res A -> res A -> Prop.
      Hypothesis X_refl : forall A (a : res A), X A a a.
      Hypothesis X_bind : forall A B (a b : res A) (k k' : A -> res B), X A a b -> (forall x, a = Ok x -> b = Ok x -> X B (k x) (k' x)) -> X B (bind a k) (bind b k').
      Hypothesis found : forall n, used r n -> X _ (get_field p1 n None) (get_field p2 n None).
      Lemma X_answer : X _ (answer u1 r) (answer u2 r).
      Proof.
        unfold answer, query_for. rewrite same_gviews. apply X_bind; [apply X_refl|]. intros vs _ _. apply X_bind; [apply X_refl|]. intros g _ _.
        apply (X_generate X X_refl X_bind (field_for info p1) (field_for info p2) (used r)).
        - intros n Nn. unfold field_for. apply X_bind; [auto|]. intros f _ _. rewrite same_qfield. apply X_refl.
        - intros n f m Nn G Im. unfold field_for in G. apply bind_ok in G. destruct G as (fo & G & E). injection E as <-. destruct (UM n Nn) as (f0 & G0 & Cn).
          destruct (found_above p1 p1 n fo f0 D D D (below_refl p1) (below_everyone u1) ND G0 Cn G) as [_ ->].
          cbn [qf_refs as_qfield] in Im. unfold text_and_refs in Im. destruct (di_sql (info f0)); [cbn [snd] in Im; eapply used_in; eauto|].
          destruct (di_body (info f0)) as [|[] pc|]; try (destruct (primary_key p1 (fo_view f0)); cbn [snd] in Im; destruct Im; fail).
          destruct (primary_key p1 (fo_view f0)) as [k|] eqn:K; [|destruct Im]. cbn [snd] in Im. unfold primary_key in K. rewrite (get_view_seen p1 D) in K. destruct (find _ (seen_views p1)) as [v|] eqn:Fv; [|discriminate]. apply find_some in Fv. destruct Fv as [Iv _]. apply filter_In in Iv. destruct Iv as [Iv _].
          rewrite (view_fields_seen p1 D v Iv) in K. apply find_some in K. destruct K as [Ik Kk]. destruct (seen_expanded _ _ _ Ik) as (fd & Fd & Sf & _). destruct (stands_def _ _ _ _ Sf) as [Df _]. eapply used_key; eauto. now rewrite <- Df.
        - intros v. unfold key_for. now rewrite same_key.
        - intros v. unfold access_for. rewrite same_get_view. apply X_bind; [apply X_refl|]. intros vd Gv _. apply (X_concatM X X_refl X_bind). intros af Ia.
          assert (Iv : In vd (p_views p)) by (apply (get_view_sound p2) in Gv; apply Gv).
          apply X_bind; [apply found; eapply used_filter; eauto|]. intros f _ _. rewrite (proj2 (proj2 AL) vd af Iv Ia). apply X_refl.
        - intros v fs n cs Ac I. unfold access_for in Ac. apply bind_ok in Ac. destruct Ac as (vd & Gv & Ac). apply (get_view_sound p1) in Gv. destruct Gv as [Iv _]. apply (concatM_ok_In _ _ _ Ac) in I. destruct I as (af & zs & Ia & Z & I). apply bind_ok in Z. destruct Z as (f & _ & Z). destruct (user_value p1 (snd af)); [|injection Z as <-; destruct I]. apply bind_ok in Z. destruct Z as (cs' & _ & Z). injection Z as <-. destruct I as [E|[]]. injection E as <- _. eapply used_filter; eauto.
        - intros n I. now apply used_asked.
      Qed.
    End Relation.
  End Pair.
End Answers.

(** Two users who may see the same views and keys, and have the same values for the access filters, are given the same SQL whenever
    both are answered: what else the grants hide decides whether there is an answer, not what it is. *)
Theorem C80_same_answer {V C} info ids w topo sp as_list valid compare cond fuel p (r : request V C) u1 u2 q1 q2 :
  declared p -> NoDup (map vd_name (p_views p)) -> unmistakable info p r -> alike p u1 u2 ->
  answer info ids w topo sp as_list valid compare cond fuel p u1 r = Ok q1 -> answer info ids w topo sp as_list valid compare cond fuel p u2 r = Ok q2 -> q1 = q2.
Proof.
  intros D ND UM AL E1 E2. refine (X_answer info ids w topo sp as_list valid compare cond fuel p D ND r UM u1 u2 AL Agree Agree_refl Agree_bind _ q1 q2 E1 E2).
  intros n Nn f1 f2 G1 G2. destruct (UM n Nn) as (f0 & G0 & Cn).
  destruct (found_above (with_user p u1) (with_user p u1) n f1 f0 D D D (below_refl _) (below_everyone p u1) ND G0 Cn G1) as [_ ->].
  destruct (found_above (with_user p u2) (with_user p u2) n f2 f0 D D D (below_refl _) (below_everyone p u2) ND G0 Cn G2) as [_ ->]. reflexivity.
Qed.
(** ... and a user who sees more fields than another is answered whatever the other is answered. *)
Theorem C80_more_is_answered {V C} info ids w topo sp as_list valid compare cond fuel p (r : request V C) u1 u2 q :
  declared p -> NoDup (map vd_name (p_views p)) -> unmistakable info p r -> alike p u1 u2 -> sees_more p u1 u2 ->
  answer info ids w topo sp as_list valid compare cond fuel p u1 r = Ok q -> answer info ids w topo sp as_list valid compare cond fuel p u2 r = Ok q.
Proof.
  intros D ND UM AL SM E. refine (X_answer info ids w topo sp as_list valid compare cond fuel p D ND r UM u1 u2 AL Le Le_refl Le_bind _ q E).
  intros n Nn f G. destruct (UM n Nn) as (f0 & G0 & Cn).
  assert (B : below (with_user p u1) (with_user p u2)).
  { split; [reflexivity|]. split.
    - intros v I. rewrite !may_spec. apply (proj1 AL v I).
    - intros v fd I F. rewrite !may_spec. now apply SM with v. }
  exact (proj1 (found_above (with_user p u1) (with_user p u2) n f f0 D D D B (below_everyone p u2) ND G0 Cn G)).
Qed.
(** ... and where the answers differ at all, the user who sees less is refused, with the error of a field one may not see. *)
Definition OrDenied (A : Type) (a b : res A) : Prop := a = b \/ a = Err AccessDenied.
Lemma OrDenied_bind A B (a b : res A) (k k' : A -> res B) : OrDenied A a b -> (forall x, a = Ok x -> b = Ok x -> OrDenied B (k x) (k' x)) -> OrDenied B (bind a k) (bind b k').
Proof. intros [->| ->] H; [|now right]. destruct b as [x|e]; [now apply H|now left]. Qed.
Lemma not_found p n f0 e : declared p -> NoDup (map vd_name (p_views p)) -> below p (with_user p None) -> get_field (with_user p None) n None = Ok f0 -> get_field p n None = Err e -> e = AccessDenied.
Proof.
  intros D ND B G0 G. unfold get_field in *. apply bind_ok in G0. destruct G0 as ([nm vn] & Pn & G0). rewrite Pn in G. cbn [bind fst snd] in *. apply bind_ok in G0. destruct G0 as (fs0 & F0 & G0).
  assert (K : fields p vn true true = Err AccessDenied \/ exists fs, fields p vn true true = Ok fs /\ sub fs fs0).
  { destruct vn as [v|].
    - rewrite (fields_seen_view p D). rewrite (fields_seen_view _ (declared_user p None D)) in F0. destruct (find _ (seen_views p)) as [vd|] eqn:E; [right|now left]. rewrite (below_find _ _ _ _ B ND E) in F0. injection F0 as <-. eexists. split; [reflexivity|]. apply below_fields; [exact B|]. apply find_some in E. destruct E as [E _]. now apply filter_In in E.
    - right. rewrite (fields_seen_all p D). rewrite (fields_seen_all _ (declared_user p None D)) in F0. injection F0 as <-. eexists. split; [reflexivity|]. now apply below_all. }
  destruct K as [K|(fs & F & Sb)]; [rewrite K in G; cbn [bind] in G; congruence|]. rewrite F in G. cbn [bind] in G.
  assert (T := sub_filter (fun f => fst (equal f nm)) _ _ Sb).
  assert (L : filter (fun f => fst (equal f nm)) fs = [] \/ exists x, filter (fun f => fst (equal f nm)) fs = [x]).
  { destruct (filter (fun f => fst (equal f nm)) fs0) as [|x [|y l]]; [left; now apply sub_empty| |discriminate G0]. destruct (sub_one _ _ T); eauto. }
  destruct L as [L|[x L]]; rewrite L in G; cbn [matching_field_handler] in G; [|discriminate]. destruct vn as [v|]; [|congruence]. destruct (String.eqb nm "count" && negb (String.eqb v "")); [|congruence]. rewrite (get_view_seen p D) in G. destruct (find _ _); cbn [bind] in G; congruence.
Qed.
Theorem C80_or_denied {V C} info ids w topo sp as_list valid compare cond fuel p (r : request V C) u1 u2 :
  declared p -> NoDup (map vd_name (p_views p)) -> unmistakable info p r -> alike p u1 u2 -> sees_more p u1 u2 ->
  answer info ids w topo sp as_list valid compare cond fuel p u1 r = answer info ids w topo sp as_list valid compare cond fuel p u2 r \/
  answer info ids w topo sp as_list valid compare cond fuel p u1 r = Err AccessDenied.
Proof.
  intros D ND UM AL SM. refine (X_answer info ids w topo sp as_list valid compare cond fuel p D ND r UM u1 u2 AL OrDenied (fun A a => or_introl eq_refl) OrDenied_bind _).
  intros n Nn. destruct (UM n Nn) as (f0 & G0 & Cn). destruct (get_field (with_user p u1) n None) as [f|e] eqn:G.
  - left. assert (B : below (with_user p u1) (with_user p u2)).
    { split; [reflexivity|]. split.
      - intros v I. rewrite !may_spec. apply (proj1 AL v I).
      - intros v fd I F. rewrite !may_spec. now apply SM with v. }
    symmetry. exact (proj1 (found_above (with_user p u1) (with_user p u2) n f f0 D D D B (below_everyone p u2) ND G0 Cn G)).
  - right. f_equal. exact (not_found (with_user p u1) n f0 e D ND (below_everyone p u1) G0 G).
Qed.
Print Assumptions C80_or_denied.
Print Assumptions C80_same_answer.
Print Assumptions C80_more_is_answered.

(** ** A case. Orders of customers; the margin of an order and the key of an order may ask for a grant. *)
Definition plain (n : string) (k : fkind) (t : string) (gs : list string) (pk : bool) : field_def := FieldDef n k t [] [] false gs pk [].
Definition u_project (key_grants margin_grants : list string) : project :=
  Project [Grant "finance" "team" ["finance"]]
    [ ViewDef "customers" false [] [plain "customer_id" Dimension "string" [] true; plain "region" Dimension "string" [] false; plain "credit" Measure "sum" [] false] [("customers.region", "territory")];
      ViewDef "orders" false [] [plain "order_id" Dimension "string" key_grants true; plain "total" Measure "sum" [] false; plain "margin" Measure "sum" margin_grants false] [] ] [] None.
Definition u_info (f : field_obj) : content :=
  Content (match fd_kind (fo_def f) with Measure => BAgg TSum false | _ => BDim end) (Some (fo_view f ++ "." ++ alias f)%string) [] "".
Definition u_ids (v : string) : list jident := match find (fun x => String.eqb (gv_name x) v) q_views with Some x => gv_ids x | None => [] end.
Definition u_answer p := answer (V := cmp) u_info u_ids Snowflake nx_topo nx_sp (nodup string_dec) (fun _ _ => Ok tt) (fun _ v => Ok [v]) (fun _ x => Ok [CIs x]) 3 p.
Definition sales : option user_attrs := Some [("team", Some "sales")].
Definition finance : option user_attrs := Some [("team", Some "finance")].
Definition u_request (ms : list string) : request cmp cmp := Request ms ["customers.region"] [] [] [].
Lemma u_unmistakable ks ms (r : request cmp cmp) : (forall n, In n (lookup_names r) -> In n ["orders.total"; "orders.margin"; "customers.credit"; "customers.region"]) -> unmistakable u_info (u_project ks ms) r.
Proof.
  intros H n U. assert (I : In n ["orders.total"; "orders.margin"; "customers.credit"; "customers.region"]).
  { induction U as [n I|v af Iv Ia|n f m _ _ _ I|v fd k m _ _ _ _ I]; [auto| |destruct I|destruct I]. destruct Iv as [<-|[<-|[]]]; [|destruct Ia]. destruct Ia as [<-|[]]. cbn; auto. }
  cbn [In] in I. decompose [or] I; subst; try contradiction; (eexists; split; [reflexivity|discriminate]).
Qed.
(** sales may not see the margin: asked for the total they are given what finance is given, asked for the margin they are refused *)
Example C80_case : exists q,
  declared (u_project [] ["finance"]) /\ NoDup (map vd_name (p_views (u_project [] ["finance"]))) /\ unmistakable u_info (u_project [] ["finance"]) (u_request ["orders.total"]) /\
  alike (u_project [] ["finance"]) sales finance /\ sees_more (u_project [] ["finance"]) sales finance /\
  u_answer (u_project [] ["finance"]) sales (u_request ["orders.total"]) = Ok q /\ u_answer (u_project [] ["finance"]) finance (u_request ["orders.total"]) = Ok q /\
  u_answer (u_project [] ["finance"]) sales (u_request ["orders.total"; "orders.margin"]) = Err AccessDenied /\
  (exists q', u_answer (u_project [] ["finance"]) finance (u_request ["orders.total"; "orders.margin"]) = Ok q').
Proof.
  set (p := u_project [] ["finance"]). assert (Fin : Access_Spec.permitted (with_user p finance) ["finance"]) by (apply can_access_object_true; reflexivity).
  assert (No : forall u, Access_Spec.permitted (with_user p u) []) by (intros u u' _ n []).
  eexists. split.
  { intros v [<-|[<-|[]]]; (split; [intros n []|]); intros fd n F I; cbn in F; decompose [or] F; subst; cbn in I; try contradiction; destruct I as [<-|[]]; now left. }
  split. { repeat constructor; cbn; intuition discriminate. }
  split. { apply u_unmistakable. cbn. tauto. }
  split. { split; [|split].
    - intros v [<-|[<-|[]]]; split; intros _; apply No.
    - intros v fd [<-|[<-|[]]] F K; cbn in F; decompose [or] F; subst; try contradiction; try discriminate; split; intros _; apply No.
    - intros v af [<-|[<-|[]]] A; cbn in A; [destruct A as [<-|[]]; reflexivity|destruct A]. }
  split. { intros v fd [<-|[<-|[]]] F _; cbn in F; decompose [or] F; subst; try contradiction; try apply No; exact Fin. }
  split; [vm_compute; reflexivity|]. split; [vm_compute; reflexivity|]. split; [vm_compute; reflexivity|]. eexists. vm_compute. reflexivity.
Qed.

(** The answer does depend on the grant of a key. When the key that holds the rows of a query apart may not be seen by the user,
    no aggregate of the query counts a row once: a sum is a plain sum. *)
Theorem C80_hidden_key_refuted {V C} info ids w topo sp as_list valid compare cond fuel p u (r : request V C) q n f t :
  answer info ids w topo sp as_list valid compare cond fuel p u r = Ok q ->
  functional_pk (s_base q) (s_joins q) = Some t -> primary_key (with_user p u) t = None ->
  In n (rq_metrics r) -> get_field (with_user p u) n None = Ok f -> (exists pc, di_body (info f) = BAgg TSum pc) ->
  In (EAgg (fo_view f) (field_id f) (ASum (fst (text_and_refs info (with_user p u) f)))) (s_select q).
Proof.
  intros A F K I G [pc B]. unfold answer, query_for in A. apply bind_ok in A. destruct A as (vs & _ & A). apply bind_ok in A. destruct A as (g & _ & A).
  apply generate_inv in A. destruct A as (fs & views & acc & req & _ & _ & _ & _ & _ & _ & Sel & _). apply mapM_ok in Sel.
  assert (I' : In n (rq_dimensions r ++ rq_metrics r)) by (apply in_or_app; now right). destruct (Forall2_In_l _ _ _ Sel n I') as (e & Ie & E).
  unfold column, field_for in E. rewrite G in E. cbn [bind] in E.
  assert (Fk : fpk_of (key_for (with_user p u)) (s_base q) (s_joins q) = FNone) by (unfold fpk_of, pk_id, key_for; now rewrite F, K).
  rewrite Fk in E. destruct fuel; cbn [sql_query] in E; cbn [as_qfield qf_body] in E; rewrite B in E; unfold aggregate, protected in E; cbn [needs_symmetric] in E; destruct (symmetric_supported w); cbn [bind] in E; injection E as <-; exact Ie.
Qed.
Print Assumptions C80_hidden_key_refuted.
(** and when the user may see both that key and the key of the view of the sum, the sum counts each of its rows once, by the text of the
    key of its view, whatever the rest of the query is *)
Theorem C80_seen_key {V C} info ids w topo sp as_list valid compare cond fuel p u (r : request V C) q n f t kt k s d :
  answer info ids w topo sp as_list valid compare cond fuel p u r = Ok q -> sym_of w = Some d -> symmetric_supported w = true ->
  functional_pk (s_base q) (s_joins q) = Some t -> primary_key (with_user p u) t = Some kt -> primary_key (with_user p u) (fo_view f) = Some k ->
  (fo_view f ++ "." ++ alias k <> t ++ "." ++ alias kt)%string -> di_sql (info k) = Some s ->
  In n (rq_metrics r) -> get_field (with_user p u) n None = Ok f -> (exists pc, di_body (info f) = BAgg TSum pc) ->
  In (EAgg (fo_view f) (field_id f) (sum_symmetric d (fst (text_and_refs info (with_user p u) f)) s)) (s_select q).
Proof.
  intros A Sd Sw F K Ko Ne Ks I G [pc B]. unfold answer, query_for in A. apply bind_ok in A. destruct A as (vs & _ & A). apply bind_ok in A. destruct A as (g & _ & A).
  apply generate_inv in A. destruct A as (fs & views & acc & req & _ & _ & _ & _ & _ & _ & Sel & _). apply mapM_ok in Sel.
  assert (I' : In n (rq_dimensions r ++ rq_metrics r)) by (apply in_or_app; now right). destruct (Forall2_In_l _ _ _ Sel n I') as (e & Ie & E).
  unfold column, field_for in E. rewrite G in E. cbn [bind] in E.
  assert (Fk : fpk_of (key_for (with_user p u)) (s_base q) (s_joins q) = FKey (t ++ "." ++ alias kt)%string) by (unfold fpk_of, pk_id, key_for; now rewrite F, K).
  apply String.eqb_neq in Ne.
  assert (Ag : forall b, aggregate TSum w b s (di_dk (info f)) pc (Some (fo_view f ++ "." ++ alias k)%string) (FKey (t ++ "." ++ alias kt)%string) = Ok (sum_symmetric d b s)) by (intros b; cbn [aggregate]; unfold protected; rewrite Sw; cbn [needs_symmetric]; rewrite Ne; cbn [bind negb]; now rewrite Sd).
  assert (Pk : pk_id (key_for (with_user p u)) (fo_view f) = Some (fo_view f ++ "." ++ alias k)%string) by (unfold pk_id, key_for; now rewrite Ko).
  rewrite Fk in E. destruct fuel; cbn [sql_query] in E; cbn [as_qfield qf_body qf_view qf_sql qf_pk_sql qf_dk_sql] in E; rewrite B, Pk, Ko in E; unfold text_of in E; rewrite Ks, Ag in E; cbn [bind] in E; injection E as <-; exact Ie.
Qed.
Print Assumptions C80_seen_key.
(** So two users who may see everything they ask for get different numbers: customer 1 has three orders and a credit of 10, which is
    10 for the user who may see the key of orders and 30 for the one who may not. *)
Definition u_numbers (u : option user_attrs) : list (list cell) :=
  match u_answer (u_project ["finance"] []) u (u_request ["customers.credit"; "orders.total"]) with
  | Ok q => run q_tab q_on q_dim q_key q_num q_arith Agg_Props.h0 (fun _ => true) (fun _ => true) q | Err _ => [] end.
Theorem C80_numbers_refuted : exists a a' x y,
  nth_error (u_numbers finance) 0 = Some [CDim (Some "north"); CNum (Some a); CNum (Some x)] /\ nth_error (u_numbers sales) 0 = Some [CDim (Some "north"); CNum (Some a'); CNum (Some y)] /\
  Qeq a 10 /\ Qeq a' 30 /\ Qeq x y.
Proof. do 4 eexists. split; [vm_compute; reflexivity|]. split; [vm_compute; reflexivity|]. repeat split; reflexivity. Qed.
Print Assumptions C80_numbers_refuted.

(** A count without sql counts the key of its view for the user who may see it, and every row, with the rows that only the joined
    views have, for the user who may not. *)
Theorem C80_count_refuted info p u f pc : di_body (info f) = BAgg TCount pc -> di_sql (info f) = None ->
  (forall k s, primary_key (with_user p u) (fo_view f) = Some k -> di_sql (info k) = Some s -> qf_sql (as_qfield info (with_user p u) f) = s) /\
  (primary_key (with_user p u) (fo_view f) = None -> qf_sql (as_qfield info (with_user p u) f) = "*").
Proof.
  intros B Sq. unfold as_qfield, text_and_refs, text_of. cbn [qf_sql]. rewrite Sq, B. split.
  - intros k s K E. rewrite K. cbn [fst]. now rewrite E.
  - intros K. now rewrite K.
Qed.
Print Assumptions C80_count_refuted.

(** A view the user may not see is left out of the joins as well: the same request goes another way round, to other rows. Here the
    region of an order is that of its customer for the user who may see customers, and that of its store for the one who may not. *)
Definition way_project : project :=
  Project [Grant "finance" "team" ["finance"]]
    [ ViewDef "orders" false [] [plain "order_id" Dimension "string" [] true; plain "total" Measure "sum" [] false] [];
      ViewDef "customers" false ["finance"] [plain "customer_id" Dimension "string" [] true] [];
      ViewDef "stores" false [] [plain "store_id" Dimension "string" [] true] [];
      ViewDef "regions" false [] [plain "region_id" Dimension "string" [] true; plain "region" Dimension "string" [] false] [] ] [] None.
Definition way_ids (v : string) : list jident :=
  if String.eqb v "orders" then [simple_id "order_id" TPrimary; simple_id "customer_id" TForeign; simple_id "store_id" TForeign]
  else if String.eqb v "customers" then [simple_id "customer_id" TPrimary; simple_id "region_id" TForeign]
  else if String.eqb v "stores" then [simple_id "store_id" TPrimary; simple_id "region_id" TForeign]
  else [simple_id "region_id" TPrimary].
Definition way (u : option user_attrs) : res (list string) :=
  q <- answer (V := cmp) u_info way_ids Snowflake nx_topo nx_sp (nodup string_dec) (fun _ _ => Ok tt) (fun _ v => Ok [v]) (fun _ x => Ok [CIs x]) 3 way_project u (Request ["orders.total"] ["regions.region"] [] [] []) ;;
  Ok (s_base q :: map jn_view (s_joins q)).
Theorem C80_way_refuted : way finance = Ok ["orders"; "customers"; "regions"] /\ way sales = Ok ["orders"; "stores"; "regions"].
Proof. split; vm_compute; reflexivity. Qed.
Print Assumptions C80_way_refuted.

(** A name without a view means whatever the user may see: for two users it is two fields, and for one who sees both it is an error. *)
Definition name_project : project :=
  Project [Grant "finance" "team" ["finance"; "all"]; Grant "sales" "team" ["sales"; "all"]]
    [ ViewDef "orders" false [] [plain "order_id" Dimension "string" [] true; plain "amount" Measure "sum" ["finance"] false] [];
      ViewDef "leads" false [] [plain "lead_id" Dimension "string" [] true; plain "amount" Measure "sum" ["sales"] false] [] ] [] None.
Definition name_answer (u : option user_attrs) : res (list sexp) :=
  q <- answer (V := cmp) u_info (fun _ => []) Snowflake nx_topo nx_sp (nodup string_dec) (fun _ _ => Ok tt) (fun _ v => Ok [v]) (fun _ x => Ok [CIs x]) 3 name_project u (Request ["amount"] [] [] [] []) ;; Ok (s_select q).
Theorem C80_name_refuted :
  name_answer finance = Ok [EAgg "orders" "orders.amount" (ASum "orders.amount")] /\ name_answer sales = Ok [EAgg "leads" "leads.amount" (ASum "leads.amount")] /\
  name_answer (Some [("team", Some "all")]) = Err QueryError.
Proof. repeat split; vm_compute; reflexivity. Qed.
Print Assumptions C80_name_refuted.

(** A count the user may not see is replaced by the count of all rows, under the same name. *)
Definition count_project : project :=
  Project [Grant "finance" "team" ["finance"]]
    [ ViewDef "orders" false [] [plain "order_id" Dimension "string" [] true; plain "count" Measure "sum" ["finance"] false] [] ] [] None.
Definition count_info (f : field_obj) : content :=
  if String.eqb (fd_type (fo_def f)) "count" then Content (BAgg TCount false) None [] "" else u_info f.
Definition count_answer (u : option user_attrs) : res (list sexp) :=
  q <- answer (V := cmp) count_info (fun _ => []) Snowflake nx_topo nx_sp (nodup string_dec) (fun _ _ => Ok tt) (fun _ v => Ok [v]) (fun _ x => Ok [CIs x]) 3 count_project u (Request ["orders.count"] [] [] [] []) ;; Ok (s_select q).
Theorem C80_replaced_refuted :
  count_answer finance = Ok [EAgg "orders" "orders.count" (ASum "orders.count")] /\ count_answer sales = Ok [EAgg "orders" "orders.count" (ACount "orders.order_id")].
Proof. split; vm_compute; reflexivity. Qed.
Print Assumptions C80_replaced_refuted.
