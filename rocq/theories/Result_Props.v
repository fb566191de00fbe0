(** C73: having, order_by and limit only choose among the rows of the result *)
From Coq Require Import List String Ascii ZArith Bool Permutation Sorted Lia.
From Verif Require Import PyBase PyStr Core_Model Merged_Model Cumulative_Model OrderBy_Model Result_Model.
Import ListNotations.
Local Open Scope string_scope.
Local Open Scope list_scope.

(** ** Lemmas *)
Lemma dedup_In l x : In x (dedup l) <-> In x l.
Proof. unfold dedup, dedup_by. rewrite <- (map_id (dedup_by_aux _ _ _)), dedup_by_aux_keys, map_id. cbn. tauto. Qed.
Fixpoint hcond_rect' (P : hcond -> Prop) (A : forall f t, P (HLeaf f t)) (B : forall any l, Forall P l -> P (HGroup any l)) (c : hcond) : P c :=
  match c with
  | HLeaf f t => A f t
  | HGroup any l => B any l ((fix go (l : list hcond) : Forall P l := match l with [] => Forall_nil _ | c :: r => Forall_cons c (hcond_rect' P A B c) (go r) end) l)
  end.
Lemma holds_ext c : forall v v', (forall f, In f (leaf_fields c) -> v f = v' f) -> holds c v = holds c v'.
Proof.
  induction c as [f t|any l IH] using hcond_rect'; intros v v' E.
  - cbn. rewrite E; [reflexivity|left; reflexivity].
  - cbn [holds]. assert (X : forall c, In c l -> holds c v = holds c v').
    { intros c C. rewrite Forall_forall in IH. apply IH; [exact C|]. intros f F. apply E. cbn. apply in_flat_map. eauto. }
    destruct l as [|c0 l0]; [reflexivity|]. set (l1 := c0 :: l0) in *.
    assert (M : map (fun c => holds c v) l1 = map (fun c => holds c v') l1) by (apply map_ext_in; exact X).
    assert (EX : forall (g : hcond -> bool) l, existsb g l = existsb (fun b => b) (map g l)) by (intros g; induction l; cbn; congruence).
    assert (FA : forall (g : hcond -> bool) l, forallb g l = forallb (fun b => b) (map g l)) by (intros g; induction l; cbn; congruence).
    destruct any; [rewrite (EX (fun c => holds c v)), (EX (fun c => holds c v')) | rewrite (FA (fun c => holds c v)), (FA (fun c => holds c v'))]; rewrite M; reflexivity.
Qed.
(** a text tests the fields it names *)
Definition text_ok (h : having) : Prop :=
  match h with HText fs t => forall v v', (forall f, In f fs -> v f = v' f) -> t v = t v' | _ => True end.
Lemma having_ext h v v' : text_ok h -> (forall f, In f (having_fields h) -> v f = v' f) -> having_holds h v = having_holds h v'.
Proof.
  destruct h as [|fs t|l]; cbn; intros T E; [reflexivity|auto|].
  induction l as [|c l IH]; [reflexivity|]. cbn in *. rewrite (holds_ext c v v'), IH; [reflexivity| |]; intros f F; apply E; apply in_or_app; auto.
Qed.
Lemma filter_map {A B} (p : B -> bool) (g : A -> B) l : filter p (map g l) = map g (filter (fun x => p (g x)) l).
Proof. induction l; cbn; [reflexivity|]. destruct (p (g a)); cbn; congruence. Qed.
Lemma add_new_In fs : forall l x, In x (add_new l fs) <-> In x l \/ In x fs.
Proof.
  unfold add_new. induction fs as [|f fs IH]; intros l x; cbn; [tauto|]. rewrite IH. destruct (mem f l) eqn:E.
  - apply mem_In in E. split; [tauto|]. intros [H|[<-|H]]; auto.
  - rewrite in_app_iff. cbn. tauto.
Qed.
Lemma filter_add_new p fs : forall l, filter p (add_new l fs) = add_new (filter p l) (filter p fs).
Proof.
  unfold add_new. induction fs as [|f fs IH]; intros l; cbn; [reflexivity|]. rewrite IH. clear IH.
  destruct (p f) eqn:P; cbn.
  - assert (M : mem f (filter p l) = mem f l).
    { destruct (mem f l) eqn:E.
      - apply mem_In. apply mem_In in E. apply filter_In. auto.
      - apply mem_false. apply mem_false in E. intros H. apply filter_In in H. tauto. }
    rewrite M. destruct (mem f l); [reflexivity|]. rewrite filter_app. cbn. rewrite P. reflexivity.
  - destruct (mem f l); [reflexivity|]. rewrite filter_app. cbn. rewrite P, app_nil_r. reflexivity.
Qed.
Lemma dedup_by_aux_skip {A} (key : A -> string) B : forall l2 seen, (forall x, In x B -> In (key x) seen) ->
  dedup_by_aux key seen (B ++ l2) = dedup_by_aux key seen l2.
Proof.
  induction B as [|b B IH]; intros l2 seen H; [reflexivity|]. cbn [app dedup_by_aux].
  assert (M : mem (key b) seen = true) by (apply mem_In; apply H; left; reflexivity). rewrite M. apply IH. intros x X. apply H. right. exact X.
Qed.
Lemma dedup_by_middle {A} (key : A -> string) B C : forall l seen, (forall x, In x B -> In (key x) seen \/ In (key x) (map key l)) ->
  dedup_by_aux key seen (l ++ B ++ C) = dedup_by_aux key seen (l ++ C).
Proof.
  induction l as [|a l IH]; intros seen H; cbn [app].
  - apply dedup_by_aux_skip. intros x X. destruct (H x X) as [Y|[]]. exact Y.
  - cbn [dedup_by_aux]. destruct (mem (key a) seen) eqn:E.
    + apply IH. intros x X. destruct (H x X) as [Y|[Y|Y]]; [auto| |auto]. left. apply mem_In in E. rewrite <- Y. exact E.
    + f_equal. apply IH. intros x X. destruct (H x X) as [Y|[Y|Y]]; [left; right; exact Y|left; left; exact Y|auto].
Qed.
Lemma dedup_by_add_new {A} (key : A -> string) (h : string -> list A) fs : forall l,
  dedup_by key (flat_map h (add_new l fs)) = dedup_by key (flat_map h (l ++ fs)).
Proof.
  unfold add_new. induction fs as [|f fs IH]; intros l; cbn [fold_left]; [rewrite app_nil_r; reflexivity|].
  rewrite IH. destruct (mem f l) eqn:E.
  - apply mem_In in E. rewrite !flat_map_app. cbn [flat_map]. unfold dedup_by. symmetry. apply dedup_by_middle.
    intros x X. right. apply in_map. apply in_flat_map. eauto.
  - rewrite <- app_assoc. reflexivity.
Qed.
Lemma dedup_app_incl l m : (forall x, In x m -> In x l) -> dedup (l ++ m) = dedup l.
Proof.
  intros H. unfold dedup, dedup_by. transitivity (dedup_by_aux (fun x => x) [] (l ++ m ++ [])); [rewrite app_nil_r; reflexivity|].
  rewrite dedup_by_middle; [rewrite app_nil_r; reflexivity|]. intros x X. right. rewrite map_id. auto.
Qed.

(** ** What a request asks for *)
(** what a having clause asks of the values of a row: a list asks all its conditions, a group all or any of its own *)
Fixpoint yes (v : string -> val) (c : hcond) : bool :=
  match c with
  | HLeaf f t => t (v f)
  | HGroup true l => negb (forallb (fun c => negb (yes v c)) l) || Nat.eqb (List.length l) 0
  | HGroup false l => forallb (yes v) l
  end.
Definition passes (h : having) (v : string -> val) : bool := match h with HNone => true | HText _ t => t v | HList l => forallb (yes v) l end.
Lemma yes_holds v c : yes v c = holds c v.
Proof.
  induction c as [f t|any l IH] using hcond_rect'; [reflexivity|]. cbn [yes holds]. rewrite Forall_forall in IH.
  assert (FA : forall (g h : hcond -> bool), (forall c, In c l -> g c = h c) -> forallb g l = forallb h l) by (intros g h; clear; induction l as [|c l IH]; intros E; [reflexivity|]; cbn; rewrite E by (now left); f_equal; apply IH; intros; apply E; now right).
  destruct any.
  - rewrite (FA _ (fun c => negb (holds c v))) by (intros c I; now rewrite (IH c I)). destruct l as [|c l]; [reflexivity|]. rewrite orb_false_r. clear. induction (c :: l) as [|x m IHm]; [reflexivity|]. cbn. rewrite negb_andb, negb_involutive, IHm. reflexivity.
  - rewrite (FA _ (fun c => holds c v)) by exact IH. destruct l; reflexivity.
Qed.
Lemma passes_holds h v : passes h v = having_holds h v.
Proof. destruct h as [|fs t|l]; cbn; try reflexivity. induction l as [|c l IH]; [reflexivity|]. cbn. now rewrite yes_holds, IH. Qed.
(** no having clause *)
Definition no_having (h : having) : Prop := h = HNone \/ h = HList [].
Lemma given_no h : given h = false <-> no_having h.
Proof. unfold no_having. destruct h as [|fs t|[|c l]]; cbn; intuition (congruence || discriminate). Qed.
Section Spec.
  Variables W K : Type.
  Variable before : ordering -> K -> K -> Prop.      (* a row may come before another under an ORDER BY *)
  Notation row := (row K).
  Definition ordered (o : ordering) (l : list row) : Prop := o = [] \/ StronglySorted (before o) (map fst l).
  Definition limited (n : option nat) (l : list row) : list row := match n with None => l | Some n => firstn n l end.
  (** the answers a warehouse can give to a statement; none when a column does not exist *)
  Definition answers (s : stmt K) (l : list row) : Prop :=
    st_missing K s = [] /\ exists p, Permutation p (st_rows K s) /\ ordered (st_order K s) p /\ l = limited (st_limit K s) p.
  Definition on_columns (cols : list string) (x : row) : row := (fst x, map (fun c => (c, cell K x c)) cols).
  (** of the rows of u those that meet the having clause, with the columns cols, in the order asked for, as many as asked for *)
  Definition asked (r : request W) (o : ordering) (cols : list string) (u : list row) (l : list row) : Prop :=
    exists p, Permutation p (map (on_columns cols) (filter (fun x => passes (q_having r) (cell K x)) u))
      /\ ordered o p /\ l = limited (q_limit r) p.
  (** the request without clauses, and the same with the metrics of its having clause *)
  Definition bare (r : request W) : request W := Request (q_metrics r) (q_dims r) (q_where r) HNone [] None.
  Definition wide (r : request W) : request W :=
    Request (add_new (q_metrics r) (having_fields (q_having r))) (q_dims r) (q_where r) HNone [] None.
  Lemma asked_length r o cols u l n : asked r o cols u l -> q_limit r = Some n -> (List.length l <= n)%nat.
  Proof. intros (p & _ & _ & ->) ->. cbn. rewrite firstn_length. lia. Qed.
End Spec.
Arguments answers {K}. Arguments asked {W K}. Arguments bare {W}. Arguments wide {W}. Arguments on_columns {K}.

Section Props.
  Variables W K : Type.
  Variable keqb : K -> K -> bool.
  Hypothesis keqb_eq : forall a b, keqb a b = true <-> a = b.
  Variable before : ordering -> K -> K -> Prop.
  Variable view_of : string -> string.
  Variable is_measure : string -> bool.
  Variable where_fields : W -> list string.
  Variable raw : list string -> W -> list K.
  Variable groups : list string -> list string -> W -> list K.
  Variable value : list string -> W -> string -> K -> val.
  Variable qt : string.
  Variable alias_in_where : bool.
  Variable metric : string -> cmetric.
  Variable row_part : W -> W.
  Variable sub_dims : string -> list string -> list string.
  Variable acc_groups : string -> list string -> W -> list K -> list K.
  Variable acc_value : string -> list K -> K -> val.
  Variable number : string -> (string -> val) -> val.
  Variable funnel_fields : list string.
  Variable primary_key : string -> string.
  Variable step_groups : list string -> list K -> list K.
  Variable step_value : string -> list K -> K -> val.
  Variable merged_refs : string -> option (list string).
  Variable sub_of : string -> string.
  Variable dims_in : string -> list string -> list string.
  Variable where_in : string -> W -> W.
  (** the rows of joined views depend on which views are joined, not on the order in which they are named *)
  Hypothesis views_raw : forall a b w, (forall v, In v a <-> In v b) -> raw a w = raw b w.
  Hypothesis views_groups : forall a b ds w, (forall v, In v a <-> In v b) -> groups a ds w = groups b ds w.
  Hypothesis views_value : forall a b w f k, (forall v, In v a <-> In v b) -> value a w f k = value b w f k.
  Notation req := (request W).
  Notation look := (lookup W where_fields).
  Notation vws := (views view_of).
  Notation plain := (plain W K view_of is_measure raw groups value qt).
  Notation outer := (outer K alias_in_where).
  Notation single := (fun r => plain false (look r) r).
  Notation funnel := (funnel W K view_of is_measure where_fields raw groups value qt alias_in_where funnel_fields primary_key step_groups step_value).
  Notation cumulative := (cumulative W K keqb view_of is_measure where_fields raw groups value qt alias_in_where metric row_part sub_dims acc_groups acc_value number).
  Notation merged := (merged W K keqb view_of is_measure where_fields raw groups value qt alias_in_where number merged_refs sub_of dims_in where_in).

  Lemma cell_rows k cols v m : In m cols -> cell K (k, map (fun m => (m, v m)) cols) m = v m.
  Proof.
    unfold cell. cbn [snd]. induction cols as [|c cols IH]; cbn; [tauto|]. intros H. destruct (String.eqb_spec m c) as [->|N]; [reflexivity|].
    apply IH. destruct H; [congruence|assumption].
  Qed.
  Lemma views_set a b : (forall v, In v (map view_of a) <-> In v (map view_of b)) -> forall v, In v (vws a) <-> In v (vws b).
  Proof. intros H v. unfold views. rewrite !dedup_In. apply H. Qed.

  (** the fields of having and order_by are of views the request uses anyway *)
  Definition same_views (r : req) (fs : list string) : Prop :=
    forall f, In f fs -> In (view_of f) (map view_of (q_metrics r ++ q_dims r ++ where_fields (q_where r))).

  (** A single query: the having clause chooses among the groups of the request without clauses *)
  Theorem C73_single r s l : single r = Ok s -> text_ok (q_having r) -> same_views r (having_fields (q_having r) ++ map fst (q_order r)) ->
    answers before s l ->
    exists s0 s1, single (bare r) = Ok s0 /\ single (wide r) = Ok s1 /\ map fst (st_rows K s1) = map fst (st_rows K s0)
      /\ st_columns K s = q_metrics r /\ st_missing K s = []
      /\ asked before r (q_order r) (q_metrics r) (st_rows K s1) l.
  Proof.
    intros G T SV A. unfold Result_Model.plain in *. rewrite andb_false_r in G. cbn [bind] in G.
    assert (G' : Ok (Stmt K (q_metrics r) (rows_of K (filter (fun k => having_holds (q_having r) (fun f => value (vws (look r)) (q_where r) f k)) (groups (vws (look r)) (q_dims r) (q_where r)))
       (q_metrics r) (value (vws (look r)) (q_where r))) (match q_order r with [] => default_order is_measure qt (q_metrics r) (q_dims r) | o => o end) (q_limit r) []) = Ok s)
      by (destruct (q_order r); exact G). clear G. injection G' as <-.
    cbn [q_having q_order q_limit q_metrics q_dims q_where bare wide given andb bind].
    do 2 eexists. split; [reflexivity|]. split; [reflexivity|]. cbn [st_columns st_rows st_order st_limit st_missing].
    set (vs := vws (look r)) in *.
    assert (E0 : forall v, In v (vws (look (bare r))) <-> In v vs).
    { apply views_set. intros v. unfold lookup. rewrite !in_map_iff. split; intros (x & <- & X).
      - exists x. split; [reflexivity|]. rewrite dedup_In in *. cbn in X. rewrite !in_app_iff in *. cbn in X. tauto.
      - rewrite dedup_In in X. rewrite !in_app_iff in X.
        assert (Y : In x (q_metrics r ++ q_dims r ++ where_fields (q_where r)) \/ In x (having_fields (q_having r) ++ map fst (q_order r))) by (rewrite !in_app_iff; tauto).
        destruct Y as [Y|Y].
        + exists x. split; [reflexivity|]. rewrite dedup_In. cbn. rewrite !app_nil_r. exact Y.
        + apply SV in Y. rewrite in_map_iff in Y. destruct Y as (y & E & Y). exists y. split; [exact E|]. rewrite dedup_In. cbn. rewrite !app_nil_r. exact Y. }
    assert (E1 : forall v, In v (vws (look (wide r))) <-> In v vs).
    { apply views_set. intros v. unfold lookup. rewrite !in_map_iff. cbn. split; intros (x & <- & X).
      - exists x. split; [reflexivity|]. rewrite dedup_In in *. rewrite !in_app_iff in *. rewrite add_new_In in X. cbn in X. tauto.
      - rewrite dedup_In in X. rewrite !in_app_iff in X.
        assert (Y : In x (q_metrics r ++ q_dims r ++ where_fields (q_where r)) \/ In x (having_fields (q_having r) ++ map fst (q_order r))) by (rewrite !in_app_iff; tauto).
        assert (Z : exists y, view_of y = view_of x /\ In y (q_metrics r ++ q_dims r ++ where_fields (q_where r))).
        { destruct Y as [Y|Y]; [eauto|]. apply SV in Y. rewrite in_map_iff in Y. destruct Y as (y & E & Y). eauto. }
        destruct Z as (y & E & Z). exists y. split; [exact E|]. rewrite dedup_In. rewrite !in_app_iff in *. rewrite add_new_In. tauto. }
    fold (bare r) (wide r).
    rewrite !(views_groups _ _ _ _ E0), !(views_groups _ _ _ _ E1).
    split; [|split; [reflexivity|split; [reflexivity|]]].
    - unfold rows_of. rewrite !map_map. cbn [fst]. rewrite !map_id. reflexivity.
    - destruct A as (_ & p & P & O & L). cbn [st_rows st_order st_limit] in *. exists p. split; [|split].
      + rewrite (filter_ext _ _ (fun x => passes_holds (q_having r) (cell K x))). rewrite P. unfold rows_of. rewrite filter_map, map_map.
        assert (FF : forall ks, filter (fun k => having_holds HNone (fun f => value (vws (look (wide r))) (q_where r) f k)) ks = ks) by (induction ks as [|k0 ks IH]; [reflexivity|]; cbn; f_equal; exact IH).
        rewrite FF. clear FF.
        assert (HH : forall k, having_holds (q_having r) (fun f => value vs (q_where r) f k)
                  = having_holds (q_having r) (cell K (k, map (fun m => (m, value (vws (look (wide r))) (q_where r) m k)) (add_new (q_metrics r) (having_fields (q_having r)))))).
        { intros k. apply having_ext; [exact T|]. intros f Ff. rewrite (cell_rows k _ (fun m => value (vws (look (wide r))) (q_where r) m k)).
          - symmetry. apply views_value. exact E1.
          - rewrite add_new_In. auto. }
        rewrite (filter_ext _ _ HH). apply Permutation_refl'. apply map_ext_in. intros k _. unfold on_columns. cbn [fst]. f_equal.
        apply map_ext_in. intros m M. f_equal. rewrite (cell_rows k _ (fun m => value (vws (look (wide r))) (q_where r) m k)).
        * symmetry. apply views_value. exact E1.
        * rewrite add_new_In. auto.
      + destruct (q_order r); [left; reflexivity|]. exact O.
      + exact L.
  Qed.

  (** ** Statements over sub queries *)
  Lemma outer_inv cols tc rows h n s : outer cols tc rows h n = Ok s ->
    (forall fs t, h <> HText fs t) /\ st_columns K s = cols /\ st_order K s = [] /\ st_limit K s = n
    /\ st_rows K s = map (on_columns cols) (filter (fun x => having_holds h (cell K x)) rows)
    /\ st_missing K s = filter (fun f => negb (mem f (tc ++ if alias_in_where then cols else []))) (having_fields h).
  Proof. unfold Result_Model.outer. destruct h; [|discriminate|]; intros X; injection X as <-; cbn; repeat split; congruence. Qed.
  Lemma outer_none cols tc rows : exists s, outer cols tc rows HNone None = Ok s /\ st_rows K s = map (on_columns cols) rows.
  Proof. eexists. split; [reflexivity|]. cbn [st_rows]. cbn [having_holds]. assert (F : forall l : list (row K), filter (fun _ => true) l = l) by (induction l; cbn; congruence). rewrite F. reflexivity. Qed.
  Lemma plain_sub ngb lk ms ds w : plain ngb lk (Request ms ds w HNone [] None) =
    Ok (Stmt K ms (rows_of K (if ngb then raw (vws lk) w else groups (vws lk) ds w) ms (value (vws lk) w)) (if ngb then [] else default_order is_measure qt ms ds) None []).
  Proof.
    unfold Result_Model.plain. cbn. assert (F : forall l : list K, filter (fun _ => true) l = l) by (induction l; cbn; congruence). rewrite F.
    destruct ngb; reflexivity.
  Qed.
  Lemma keys_rows ks cols v : map fst (rows_of K ks cols v) = ks.
  Proof. unfold rows_of. rewrite map_map. cbn. apply map_id. Qed.
  Lemma rows_ext ks cols v v' : (forall m k, In m cols -> v m k = v' m k) -> rows_of K ks cols v = rows_of K ks cols v'.
  Proof. intros E. unfold rows_of. apply map_ext. intros k. f_equal. apply map_ext_in. intros m M. rewrite E; auto. Qed.
  Lemma cell_on cols x f : In f cols -> cell K (on_columns cols x) f = cell K x f.
  Proof. intros I. unfold on_columns. rewrite (cell_rows (fst x) cols (fun c => cell K x c) f I). reflexivity. Qed.
  Lemma mapM_total {A B} (f : A -> res B) g (l : list A) : (forall x, In x l -> f x = Ok (g x)) -> mapM f l = Ok (map g l).
  Proof. induction l as [|a l IH]; intros H; cbn; [reflexivity|]. rewrite (H a (or_introl eq_refl)). cbn. rewrite IH; [reflexivity|]. intros x X. apply H. right. exact X. Qed.
  Lemma leaves l fs : mapM (fun c => match c with HLeaf f _ => Ok f | HGroup _ _ => Err KeyError end) l = Ok fs -> fs = flat_map leaf_fields l.
  Proof.
    revert fs. induction l as [|c l IH]; intros fs H; cbn in H; [injection H as <-; reflexivity|].
    destruct c as [f t|]; [|discriminate]. cbn in H. apply bind_ok in H. destruct H as (gs & G & H). injection H as <-. cbn. f_equal. apply IH. exact G.
  Qed.

  (** what the two statements of a request have in common, for any rows [all] and [all1] whose cells agree where they are used *)
  Lemma asked_from (r : req) cols cols1 (all all1 : list (row K)) s s1 l tc :
    outer cols tc all (q_having r) (q_limit r) = Ok s ->
    st_rows K s1 = map (on_columns cols1) all1 ->
    (exists (X : Type) (ks : list X) (ky : X -> K) (c c1 : X -> list (string * val)), all = map (fun k => (ky k, c k)) ks /\ all1 = map (fun k => (ky k, c1 k)) ks
       /\ forall k f, In k ks -> In f cols \/ In f (having_fields (q_having r)) -> In f cols1 /\ cell K (ky k, c k) f = cell K (ky k, c1 k) f) ->
    answers before s l -> asked before r [] cols (st_rows K s1) l.
  Proof.
    intros O R1 (X & ks & ky & c & c1 & -> & -> & E) (_ & p & P & OR & L). apply outer_inv in O. destruct O as (NT & C & OO & LM & R & _).
    exists p. split; [|split; [left; reflexivity|rewrite <- LM; exact L]].
    rewrite (filter_ext _ _ (fun x => passes_holds (q_having r) (cell K x))). rewrite P, R, R1. rewrite !filter_map, !map_map.
    assert (HH : forall k, In k ks -> having_holds (q_having r) (cell K (ky k, c k)) = having_holds (q_having r) (cell K (on_columns cols1 (ky k, c1 k)))).
    { intros k Hk. apply having_ext; [destruct (q_having r); cbn; auto; exfalso; eapply NT; reflexivity|].
      intros f F. destruct (E k f Hk (or_intror F)) as [I Y]. rewrite (cell_on _ _ _ I). exact Y. }
    rewrite (filter_ext_in _ _ _ HH). apply Permutation_refl'. apply map_ext_in. intros k Hk. apply filter_In in Hk. destruct Hk as [Hk _]. unfold on_columns at 1 2. cbn [fst]. f_equal.
    apply map_ext_in. intros m M. f_equal. destruct (E k m Hk (or_introl M)) as [I Y]. rewrite Y. symmetry. apply (cell_on cols1 (ky k, c1 k) m I).
  Qed.

  (** ** Funnels *)
  Theorem C73_funnel r s l : funnel r = Ok s ->
    (forall f, In f (having_fields (q_having r)) -> forall g, In g [f; primary_key f] ->
       In (view_of g) (map view_of (q_metrics r ++ map primary_key (q_metrics r) ++ q_dims r ++ where_fields (q_where r) ++ funnel_fields))) ->
    answers before s l ->
    exists s0 s1, funnel (bare r) = Ok s0 /\ funnel (wide r) = Ok s1 /\ map fst (st_rows K s1) = map fst (st_rows K s0)
      /\ st_columns K s = q_metrics r ++ dedup (having_fields (q_having r)) /\ st_missing K s = [] /\ q_order r = []
      /\ asked before r [] (st_columns K s) (st_rows K s1) l.
  Proof.
    intros G SV A. unfold Result_Model.funnel in G.
    apply bind_ok in G. destruct G as (hs & HS & G).
    assert (HE : hs = dedup (having_fields (q_having r))).
    { destruct (q_having r) as [|fs t|lc]; cbn in HS; [injection HS as <-; reflexivity|discriminate|].
      apply bind_ok in HS. destruct HS as (fs & F & HS). injection HS as <-. cbn. rewrite (leaves _ _ F). reflexivity. }
    apply bind_ok in G. destruct G as (sb & SB & G).
    assert (OE : q_order r = []).
    { destruct (q_order r); [reflexivity|]. unfold Result_Model.plain in SB. cbn in SB. discriminate. }
    rewrite OE in SB. rewrite plain_sub in SB. injection SB as <-. unfold cte in G. cbn [st_limit st_rows] in G. rewrite keys_rows in G.
    set (lk := fun (r : req) (ms : list string) => dedup (look r ++ q_dims r ++ funnel_fields ++ flat_map (fun m => [primary_key m; m]) ms)) in *.
    assert (FB : forall r', q_having r' = HNone -> q_order r' = [] -> q_limit r' = None -> q_where r' = q_where r -> q_dims r' = q_dims r ->
      exists s', funnel r' = Ok s' /\ st_rows K s' = map (on_columns (q_metrics r')) (rows_of K (step_groups (q_dims r) (raw (vws (lk r' (q_metrics r'))) (q_where r)))
          (q_metrics r') (fun m k => step_value m (raw (vws (lk r' (q_metrics r'))) (q_where r)) k))).
    { intros r' H1 H2 H3 H4 H5. unfold Result_Model.funnel. rewrite H1, H2, H3. cbn [having_metrics bind]. rewrite app_nil_r.
      fold (lk r' (q_metrics r')). rewrite plain_sub. cbn [bind]. unfold cte. cbn [st_limit st_rows]. rewrite keys_rows, H4, H5. apply outer_none. }
    destruct (FB (bare r)) as (s0 & G0 & R0); try reflexivity. destruct (FB (wide r)) as (s1 & G1 & R1); try reflexivity.
    exists s0, s1. split; [exact G0|]. split; [exact G1|].
    assert (MI : forall x, In x (flat_map leaf_fields []) -> False) by (cbn; tauto).
    assert (VS : forall r' ms, (r' = bare r /\ ms = q_metrics r \/ r' = wide r /\ ms = q_metrics (wide r) \/ r' = r /\ ms = q_metrics r ++ hs) ->
      forall v, In v (vws (lk r' ms)) <-> In v (map view_of (q_metrics r ++ map primary_key (q_metrics r) ++ q_dims r ++ where_fields (q_where r) ++ funnel_fields))).
    { intros r' ms C v. unfold views. rewrite dedup_In. split.
      - intros V. apply in_map_iff in V. destruct V as (x & <- & X). unfold lk, lookup in X. rewrite dedup_In, !in_app_iff, dedup_In, !in_app_iff, in_flat_map in X.
        assert (ON : map fst (q_order r') = []) by (destruct C as [[-> _]|[[-> _]|[-> _]]]; cbn; rewrite ?OE; reflexivity). rewrite ON in X.
        assert (QD : q_dims r' = q_dims r /\ q_where r' = q_where r) by (destruct C as [[-> _]|[[-> _]|[-> _]]]; cbn; auto). destruct QD as [QD QW]. rewrite QD, QW in X.
        assert (QM : forall y, In y (q_metrics r') \/ In y (having_fields (q_having r')) \/ In y ms -> In y (q_metrics r) \/ In y (having_fields (q_having r))).
        { intros y Y. destruct C as [[-> ->]|[[-> ->]|[-> ->]]]; cbn in Y; rewrite ?add_new_In, ?in_app_iff, ?HE, ?dedup_In in Y; tauto. }
        assert (Y : (exists y, (x = y \/ x = primary_key y) /\ (In y (q_metrics r) \/ In y (having_fields (q_having r)))) \/ In x (q_dims r ++ where_fields (q_where r) ++ funnel_fields)).
        { rewrite !in_app_iff. destruct X as [[X|[X|[X|[X|[]]]]]|[X|[X|(m & M & X)]]]; [left; exists x; split; [auto|apply QM; auto]|auto|auto|left; exists x; split; [auto|apply QM; auto]|auto|auto|].
          left. exists m. split; [destruct X as [X|[X|[]]]; auto|apply QM; auto]. }
        destruct Y as [(y & E & [Y|Y])|Y].
        + apply in_map. rewrite !in_app_iff in *. destruct E as [->| ->]; [auto|]. right. left. apply in_map. exact Y.
        + apply (SV y Y). destruct E as [->| ->]; cbn; auto.
        + apply in_map. rewrite !in_app_iff in *. tauto.
      - intros V. apply in_map_iff in V. destruct V as (x & <- & X). apply in_map. unfold lk, lookup. rewrite dedup_In, !in_app_iff, dedup_In, !in_app_iff, in_flat_map.
        assert (QD : q_dims r' = q_dims r /\ q_where r' = q_where r) by (destruct C as [[-> _]|[[-> _]|[-> _]]]; cbn; auto). destruct QD as [QD QW]. rewrite QD, QW.
        assert (QM : forall y, In y (q_metrics r) -> In y ms) by (intros y Y; destruct C as [[_ ->]|[[_ ->]|[_ ->]]]; cbn; rewrite ?add_new_In, ?in_app_iff; auto).
        rewrite !in_app_iff, in_map_iff in X. destruct X as [X|[(y & <- & Y)|[X|[X|X]]]]; [| |tauto|tauto|tauto].
        + right. right. right. exists x. split; [auto|cbn; auto].
        + right. right. right. exists y. split; [auto|cbn; auto]. }
    assert (R : forall r' ms, (r' = bare r /\ ms = q_metrics r \/ r' = wide r /\ ms = q_metrics (wide r)) ->
      raw (vws (lk r' ms)) (q_where r) = raw (vws (lk r (q_metrics r ++ hs))) (q_where r)).
    { intros r' ms C. apply views_raw. intros v. rewrite (VS r' ms); [|tauto]. rewrite (VS r (q_metrics r ++ hs)); tauto. }
    rewrite (R (bare r)) in R0 by auto. rewrite (R (wide r)) in R1 by auto. fold (lk r (q_metrics r ++ hs)) in G.
    set (ks := raw (vws (lk r (q_metrics r ++ hs))) (q_where r)) in *.
    assert (CM := outer_inv _ _ _ _ _ _ G). destruct CM as (NT & C & OO & LM & RR & MS).
    split; [rewrite R0, R1, !map_map; unfold on_columns; cbn [fst]; rewrite !keys_rows; reflexivity|].
    split; [rewrite C, HE; reflexivity|].
    split. { rewrite MS. rewrite HE. assert (X : forall fs, (forall f, In f fs -> In f (having_fields (q_having r))) -> filter (fun f => negb (mem f ((q_metrics r ++ dedup (having_fields (q_having r))) ++ (if alias_in_where then q_metrics r ++ dedup (having_fields (q_having r)) else [])))) fs = []).
      { induction fs as [|f fs IH]; [reflexivity|]. intros HI. cbn. assert (M : mem f ((q_metrics r ++ dedup (having_fields (q_having r))) ++ (if alias_in_where then q_metrics r ++ dedup (having_fields (q_having r)) else [])) = true).
        { apply mem_In. rewrite !in_app_iff, dedup_In. left. right. apply HI. left. reflexivity. }
        rewrite M. cbn. apply IH. intros g Hg. apply HI. right. exact Hg. }
      apply X. auto. }
    split; [exact OE|]. rewrite C.
    eapply asked_from; [exact G|exact R1| |exact A].
    exists K, (step_groups (q_dims r) ks), (fun k => k), (fun k => map (fun m => (m, step_value m ks k)) (q_metrics r ++ hs)), (fun k => map (fun m => (m, step_value m ks k)) (q_metrics (wide r))).
    split; [reflexivity|]. split; [reflexivity|]. intros k f _ F.
    assert (I : In f (q_metrics (wide r)) /\ In f (q_metrics r ++ hs)).
    { cbn. rewrite add_new_In, in_app_iff in *. rewrite HE, dedup_In in *. tauto. }
    split; [tauto|]. rewrite (cell_rows k (q_metrics r ++ hs) (fun m => step_value m ks k)) by tauto. rewrite (cell_rows k (q_metrics (wide r)) (fun m => step_value m ks k)) by tauto. reflexivity.
  Qed.

  (** ** Cumulative metrics *)
  Notation sepc ms := (fst (separate_metrics (map metric ms))).
  Notation sepp ms := (snd (separate_metrics (map metric ms))).
  Lemma sep_add ms fs : separate_metrics (map metric (add_new ms fs)) = separate_metrics (map metric (ms ++ fs)).
  Proof.
    unfold separate_metrics. rewrite !flat_map_concat_map, !map_map, <- !flat_map_concat_map.
    rewrite (dedup_by_add_new cm_id (fun x => fst (separate_one (metric x)))), (dedup_by_add_new cm_id (fun x => snd (separate_one (metric x)))). reflexivity.
  Qed.
  Lemma dedup_by_prefix {A} (key : A -> string) b : forall a seen, exists c, dedup_by_aux key seen (a ++ b) = dedup_by_aux key seen a ++ c.
  Proof.
    induction a as [|x a IH]; intros seen; cbn; [eexists; reflexivity|]. destruct (mem (key x) seen); [apply IH|].
    destruct (IH (key x :: seen)) as [c E]. exists c. rewrite E. reflexivity.
  Qed.
  Lemma sep_prefix ms fs : exists c p, sepc (ms ++ fs) = sepc ms ++ c /\ sepp (ms ++ fs) = sepp ms ++ p.
  Proof.
    unfold separate_metrics. cbn [fst snd]. rewrite map_app, !flat_map_app.
    destruct (dedup_by_prefix cm_id (flat_map (fun m => fst (separate_one m)) (map metric fs)) (flat_map (fun m => fst (separate_one m)) (map metric ms)) []) as [c C].
    destruct (dedup_by_prefix cm_id (flat_map (fun m => snd (separate_one m)) (map metric fs)) (flat_map (fun m => snd (separate_one m)) (map metric ms)) []) as [q Q].
    exists c, q. split; assumption.
  Qed.
  (** a metric has one type *)
  Hypothesis one_type : forall m i refs, metric m <> CM i true true refs.
  Lemma sep_cumulative ms m : In m ms -> is_cumulative (metric m) = true -> sepc ms <> [].
  Proof.
    intros I C E. assert (X : forall x, In x (flat_map (fun m => fst (separate_one m)) (map metric ms)) -> False).
    { intros x X. assert (Y : In (cm_id x) (map cm_id (sepc ms))).
      { unfold separate_metrics. cbn [fst]. apply dedup_by_aux_keys. split; [apply in_map; exact X|intros []]. }
      rewrite E in Y. exact Y. }
    destruct (metric m) as [i c nu refs] eqn:M. unfold is_cumulative in C. cbn [type_cumulative refs_of] in C.
    assert (NE : exists x, In x (fst (separate_one (CM i c nu refs)))).
    { unfold separate_one. unfold is_cumulative at 1. cbn [type_cumulative refs_of]. rewrite C. destruct nu; cbn [fst]; [|eexists; left; reflexivity].
      destruct (existsb type_cumulative refs) eqn:B.
      - apply existsb_exists in B. destruct B as (y & Y & B). exists y. apply filter_In. split; [exact Y|]. unfold is_cumulative. rewrite B. reflexivity.
      - exfalso. rewrite orb_false_r in C. subst c. exact (one_type m i refs M). }
    destruct NE as (x & NE). apply (X x). apply in_flat_map. exists (metric m). split; [apply in_map; exact I|]. rewrite M. exact NE.
  Qed.

  Definition sub_views (r : req) (ms : list string) : list string := vws (dedup (filter (fun f => negb (is_measure f)) (look r) ++ ms)).
  Definition acc_rows (r : req) (m : string) : list (row K) :=
    let ks := raw (sub_views r [m]) (row_part (q_where r)) in
    map (fun k => (k, [(m, acc_value m ks k)])) (acc_groups m (q_dims r) (q_where r) ks).
  Definition cum_base (r : req) (ns : list string) : list (row K) :=
    match sepp ns with
    | [] => match sepc ns with c :: _ => acc_rows r (cm_id c) | [] => [] end
    | ps => rows_of K (groups (sub_views r (map cm_id ps)) (q_dims r) (q_where r)) (map cm_id ps) (value (sub_views r (map cm_id ps)) (q_where r))
    end.
  Definition cum_others (r : req) (ns : list string) : list (string * list (row K)) :=
    let tabs := map (fun c => (cm_id c, acc_rows r (cm_id c))) (sepc ns) in match sepp ns with [] => tl tabs | _ => tabs end.
  Definition cum_all (r : req) (ns : list string) : list (row K) :=
    map (fun x => (fst x, map (fun f => (f, selected W K keqb metric number r (cum_others r ns) x f)) (dedup (q_metrics r ++ map cm_id (sepp ns))))) (cum_base r ns).
  Lemma cumulative_eq r ns : q_order r = [] -> named_metrics W r = Ok ns -> sepc ns <> [] ->
    cumulative r = outer (q_metrics r) (map cm_id (sepp ns)) (cum_all r ns) (q_having r) (q_limit r).
  Proof.
    intros O N NE. unfold Result_Model.cumulative. rewrite N. cbn [bind]. unfold cum_all, cum_base, cum_others.
    destruct (separate_metrics (map metric ns)) as [cs ps] eqn:S. cbn [fst snd] in *.
    rewrite (mapM_total _ (fun c => (cm_id c, acc_rows r (cm_id c)))).
    2:{ intros c _. unfold accumulated, subquery. rewrite O, plain_sub. cbn [bind]. unfold cte. cbn [st_limit st_rows]. rewrite keys_rows. reflexivity. }
    cbn [bind]. destruct ps as [|p0 ps].
    - destruct cs as [|c cs]; [congruence|]. cbn [map bind tl]. reflexivity.
    - unfold subquery. rewrite O, plain_sub. cbn [bind]. unfold cte. cbn [st_limit st_rows]. reflexivity.
  Qed.
  Lemma named_ok r ns : named_metrics W r = Ok ns -> ns = q_metrics r ++ having_fields (q_having r).
  Proof.
    unfold named_metrics. destruct (q_having r) as [|fs t|lc]; intros H; [injection H as <-; cbn; rewrite app_nil_r; reflexivity|discriminate|].
    apply bind_ok in H. destruct H as (fs & F & H). injection H as <-. cbn. rewrite (leaves _ _ F). reflexivity.
  Qed.

  (** A query of cumulative metrics.  When the having clause names a metric that is not cumulative, the request has
      one too *)
  Theorem C73_cumulative r s l : cumulative r = Ok s ->
    (exists m, In m (q_metrics r) /\ is_cumulative (metric m) = true) ->
    (forall f, In f (having_fields (q_having r)) -> is_measure f = true) ->
    sepp (q_metrics r) <> [] \/ sepp (q_metrics r ++ having_fields (q_having r)) = [] ->
    (forall x, In x (sepp (q_metrics r ++ having_fields (q_having r))) ->
       In (view_of (cm_id x)) (map view_of (filter (fun f => negb (is_measure f)) (look (bare r)) ++ map cm_id (sepp (q_metrics r))))) ->
    answers before s l ->
    exists s0 s1, cumulative (bare r) = Ok s0 /\ cumulative (wide r) = Ok s1 /\ map fst (st_rows K s1) = map fst (st_rows K s0)
      /\ st_columns K s = q_metrics r /\ q_order r = []
      /\ asked before r [] (q_metrics r) (st_rows K s1) l.
  Proof.
    intros G (mc & MC & IC) MEAS BASE VIEWS A. assert (MISS := proj1 A).
    assert (G0 := G). unfold Result_Model.cumulative in G0. apply bind_ok in G0. destruct G0 as (ns & N & G0). pose proof (named_ok _ _ N) as NE.
    assert (CN : forall fs, sepc (q_metrics r ++ fs) <> []).
    { intros fs. apply (sep_cumulative _ mc); [apply in_or_app; left; exact MC|exact IC]. }
    assert (OE : q_order r = []).
    { destruct (q_order r) as [|o os] eqn:OQ; [reflexivity|exfalso]. specialize (CN (having_fields (q_having r))). rewrite <- NE in CN.
      destruct (separate_metrics (map metric ns)) as [cs ps]. cbn [fst] in CN. destruct cs as [|c cs]; [congruence|].
      cbn [mapM] in G0. unfold accumulated, subquery, Result_Model.plain in G0. rewrite OQ in G0. cbn in G0. discriminate. }
    clear G0. rewrite (cumulative_eq r ns OE N) in G by (rewrite NE; apply CN).
    rewrite (cumulative_eq (bare r) (q_metrics r) eq_refl eq_refl) by (rewrite <- (app_nil_r (q_metrics r)); apply CN).
    assert (SW : separate_metrics (map metric (q_metrics (wide r))) = separate_metrics (map metric ns)) by (rewrite NE; cbn; apply sep_add).
    rewrite (cumulative_eq (wide r) (q_metrics (wide r)) eq_refl eq_refl) by (rewrite SW, NE; apply CN).
    cbn [q_having q_limit bare wide]. fold (bare r) (wide r).
    destruct (outer_none (q_metrics (bare r)) (map cm_id (sepp (q_metrics r))) (cum_all (bare r) (q_metrics r))) as (s0 & E0 & R0).
    destruct (outer_none (q_metrics (wide r)) (map cm_id (sepp (q_metrics (wide r)))) (cum_all (wide r) (q_metrics (wide r)))) as (s1 & E1 & R1).
    exists s0, s1. split; [exact E0|]. split; [exact E1|].
    (* the views of the sub queries *)
    assert (NM : forall r' f, r' = bare r \/ r' = wide r -> In f (filter (fun f => negb (is_measure f)) (look r')) <-> In f (filter (fun f => negb (is_measure f)) (look r))).
    { intros r' f C. rewrite !filter_In. unfold lookup. rewrite !dedup_In, !in_app_iff, OE.
      assert (NH : In f (having_fields (q_having r)) -> negb (is_measure f) = true -> False) by (intros H B; rewrite (MEAS _ H) in B; discriminate).
      destruct C as [->| ->]; cbn; rewrite ?add_new_In; tauto. }
    assert (SV : forall r' ms, r' = bare r \/ r' = wide r -> forall v, In v (sub_views r' ms) <-> In v (sub_views r ms)).
    { intros r' ms C v. apply views_set. clear v. intros v. rewrite !in_map_iff. split; intros (x & E & X); exists x; (split; [exact E|]); rewrite dedup_In, in_app_iff in *; rewrite (NM r' x C) in *; exact X. }
    assert (AR : forall r' m, r' = bare r \/ r' = wide r -> acc_rows r' m = acc_rows r m).
    { intros r' m C. unfold acc_rows. assert (Q : q_where r' = q_where r /\ q_dims r' = q_dims r) by (destruct C as [->| ->]; auto). destruct Q as [-> ->].
      rewrite (views_raw _ _ _ (SV r' [m] C)). reflexivity. }
    (* the base *)
    assert (BW : cum_base (wide r) (q_metrics (wide r)) = cum_base r ns).
    { unfold cum_base. rewrite SW. destruct (sepp ns) as [|p0 ps].
      - destruct (sepc ns); [reflexivity|]. apply AR. auto.
      - cbn [q_where q_dims wide]. fold (wide r). rewrite (views_groups _ _ _ _ (SV (wide r) _ (or_intror eq_refl))). apply rows_ext. intros m k _. apply views_value. apply SV. auto. }
    assert (BB : map fst (cum_base (bare r) (q_metrics r)) = map fst (cum_base r ns)).
    { unfold cum_base. destruct (sep_prefix (q_metrics r) (having_fields (q_having r))) as (c & q & C & Q). rewrite <- NE in C, Q.
      destruct (sepp (q_metrics r)) as [|p0 ps] eqn:P0.
      - destruct BASE as [B|B]; [congruence|]. rewrite <- NE in B. rewrite B.
        destruct (sepc (q_metrics r)) as [|c0 cs] eqn:C0; [exfalso; apply (CN []); rewrite app_nil_r; exact C0|].
        rewrite C. cbn [app]. rewrite AR by auto. reflexivity.
      - rewrite Q. cbn [app]. rewrite !keys_rows. cbn [q_where q_dims bare]. fold (bare r). apply views_groups.
        intros v. rewrite (SV (bare r) _ (or_introl eq_refl)). unfold sub_views.
        change (p0 :: ps ++ q) with ((p0 :: ps) ++ q). revert v. apply views_set. intros v. rewrite !in_map_iff. split; intros (x & <- & X).
        + exists x. split; [reflexivity|]. rewrite dedup_In, in_app_iff in *. rewrite map_app, in_app_iff. tauto.
        + rewrite dedup_In, in_app_iff, map_app, in_app_iff in X. destruct X as [X|[X|X]].
          * exists x. split; [reflexivity|]. rewrite dedup_In, in_app_iff. auto.
          * exists x. split; [reflexivity|]. rewrite dedup_In, in_app_iff. auto.
          * rewrite in_map_iff in X. destruct X as (y & <- & Y). assert (V : In y (sepp (q_metrics r ++ having_fields (q_having r)))) by (rewrite <- NE, Q; apply in_or_app; auto).
            apply VIEWS in V. rewrite in_map_iff in V. destruct V as (z & E & Z). exists z. split; [exact E|]. rewrite dedup_In. rewrite in_app_iff in *.
            rewrite (NM (bare r) z (or_introl eq_refl)) in Z. exact Z. }
    assert (OI := outer_inv _ _ _ _ _ _ G). destruct OI as (NT & C & OO & LM & RR & MS).
    split. { rewrite R0, R1. unfold cum_all. rewrite !map_map. unfold on_columns. cbn [fst]. rewrite BW. transitivity (map fst (cum_base r ns)); [apply map_ext; reflexivity|]. rewrite <- BB. apply map_ext. reflexivity. }
    split; [exact C|]. split; [exact OE|].
    eapply asked_from; [exact G|exact R1| |exact A].
    exists (row K), (cum_base r ns), fst, (fun x => map (fun f => (f, selected W K keqb metric number r (cum_others r ns) x f)) (dedup (q_metrics r ++ map cm_id (sepp ns)))),
      (fun x => map (fun f => (f, selected W K keqb metric number (wide r) (cum_others (wide r) (q_metrics (wide r))) x f)) (dedup (q_metrics (wide r) ++ map cm_id (sepp (q_metrics (wide r)))))).
    split; [reflexivity|]. split; [unfold cum_all; rewrite BW; reflexivity|]. intros x f _ F.
    assert (I : In f (q_metrics r ++ map cm_id (sepp ns))).
    { destruct F as [F|F]; [apply in_or_app; auto|]. rewrite MISS in MS. symmetry in MS.
      destruct (mem f (map cm_id (sepp ns) ++ (if alias_in_where then q_metrics r else []))) eqn:E.
      - apply mem_In in E. rewrite in_app_iff in *. destruct E as [E|E]; [auto|]. destruct alias_in_where; [auto|destruct E].
      - exfalso. assert (X : In f (filter (fun f => negb (mem f (map cm_id (sepp ns) ++ (if alias_in_where then q_metrics r else [])))) (having_fields (q_having r)))) by (apply filter_In; rewrite E; auto).
        rewrite MS in X. exact X. }
    assert (I1 : In f (q_metrics (wide r))) by (cbn; rewrite add_new_In; exact F).
    split; [exact I1|].
    rewrite (cell_rows (fst x) _ (fun f => selected W K keqb metric number r (cum_others r ns) x f)) by (rewrite dedup_In; exact I).
    rewrite (cell_rows (fst x) _ (fun f => selected W K keqb metric number (wide r) (cum_others (wide r) (q_metrics (wide r))) x f)) by (rewrite dedup_In, in_app_iff; auto).
    unfold selected. assert (CO : cum_others (wide r) (q_metrics (wide r)) = cum_others r ns).
    { unfold cum_others. rewrite SW. assert (M : map (fun c => (cm_id c, acc_rows (wide r) (cm_id c))) (sepc ns) = map (fun c => (cm_id c, acc_rows r (cm_id c))) (sepc ns)) by (apply map_ext; intros c; rewrite AR; auto). rewrite M. reflexivity. }
    rewrite CO. reflexivity.
  Qed.

  (** ** Merged results *)
  Notation qmetrics := (query_metrics W merged_refs).
  Notation mmetrics := (merged_metrics W merged_refs).
  Notation snames := (sub_names W merged_refs sub_of).
  Notation ismerged := (is_merged merged_refs).
  Lemma list_having r : (forall fs t, q_having r <> HText fs t) -> flat_map leaf_fields (match q_having r with HList l => l | _ => [] end) = having_fields (q_having (r : req)).
  Proof. destruct (q_having r); intros H; cbn; auto. exfalso. eapply H. reflexivity. Qed.
  Lemma mmetrics_wide r : (forall fs t, q_having r <> HText fs t) -> mmetrics (wide r) = mmetrics r /\ qmetrics (wide r) = qmetrics r.
  Proof.
    intros NT. pose proof (list_having r NT) as LH.
    assert (M : mmetrics (wide r) = mmetrics r).
    { unfold merged_metrics. rewrite LH. cbn. apply filter_add_new. }
    split; [exact M|]. unfold query_metrics. rewrite M. unfold secondary_metrics. rewrite LH. cbn. f_equal. f_equal. apply filter_add_new.
  Qed.
  Definition sub_request (r : req) (h : string) : req :=
    Request (filter (fun m => String.eqb (sub_of m) h) (qmetrics r)) (dims_in h (q_dims r)) (where_in h (q_where r)) HNone [] None.
  Definition sub_rows (r : req) (h : string) : list (row K) :=
    let q := sub_request r h in rows_of K (groups (vws (look q)) (q_dims q) (q_where q)) (q_metrics q) (value (vws (look q)) (q_where q)).
  Definition merged_keys (r : req) : list K := kdedup K keqb [] (flat_map (fun h => map fst (sub_rows r h)) (snames r)).
  Definition merged_cell (r : req) (m : string) (k : K) : val :=
    let col m := if mem (sub_of m) (snames r) then match find_row K keqb k (sub_rows r (sub_of m)) with Some x => cell K x m | None => None end else None in
    if ismerged m then number m col else col m.
  Hypothesis number_ext : forall m v v', (forall f, v f = v' f) -> number m v = number m v'.
  Lemma merged_eq r : exists rows, merged r = outer (dedup (qmetrics r ++ mmetrics r)) (qmetrics r) rows (q_having r) (q_limit r)
    /\ rows = rows_of K (merged_keys r) (dedup (qmetrics r ++ mmetrics r)) (merged_cell r).
  Proof.
    unfold Result_Model.merged. rewrite (mapM_total _ (fun h => (h, Stmt K (q_metrics (sub_request r h)) (sub_rows r h) (default_order is_measure qt (q_metrics (sub_request r h)) (q_dims (sub_request r h))) None []))).
    2:{ intros h _. unfold sub_query. rewrite plain_sub. reflexivity. }
    cbn [bind]. eexists. split; [reflexivity|].
    assert (KS : flat_map (fun s => map fst (cte K (snd s))) (map (fun h => (h, Stmt K (q_metrics (sub_request r h)) (sub_rows r h) (default_order is_measure qt (q_metrics (sub_request r h)) (q_dims (sub_request r h))) None [])) (snames r))
        = flat_map (fun h => map fst (sub_rows r h)) (snames r)).
    { rewrite !flat_map_concat_map, map_map. reflexivity. }
    rewrite KS. apply rows_ext. intros m k _. unfold merged_cell.
    assert (AS : forall m, match assoc (sub_of m) (map (fun h => (h, Stmt K (q_metrics (sub_request r h)) (sub_rows r h) (default_order is_measure qt (q_metrics (sub_request r h)) (q_dims (sub_request r h))) None [])) (snames r)) with
       | Some s => match find_row K keqb k (cte K s) with Some x => cell K x m | None => None end | None => None end
       = if mem (sub_of m) (snames r) then match find_row K keqb k (sub_rows r (sub_of m)) with Some x => cell K x m | None => None end else None).
    { intros m'. clear KS. induction (snames r) as [|h hs IH]; cbn; [reflexivity|]. destruct (String.eqb_spec (sub_of m') h) as [->|N]; [reflexivity|]. exact IH. }
    destruct (ismerged m); [apply number_ext; exact AS|apply AS].
  Qed.
  Lemma kdedup_In l : forall seen k, In k (kdedup K keqb seen l) <-> In k l /\ ~ In k seen.
  Proof.
    induction l as [|x l IH]; intros seen k; cbn; [tauto|]. destruct (existsb (keqb x) seen) eqn:E.
    - apply existsb_exists in E. destruct E as (y & Y & E). apply keqb_eq in E. subst y. rewrite IH. split; [tauto|]. intros [[<-|H] N]; tauto.
    - assert (N : ~ In x seen). { intros I. assert (X : existsb (keqb x) seen = true) by (apply existsb_exists; exists x; split; [exact I|apply keqb_eq; reflexivity]). congruence. }
      cbn. rewrite IH. cbn. split.
      + intros [<-|[A B]]; [tauto|]. tauto.
      + intros [[<-|A] B]; [tauto|]. assert (D : keqb x k = true \/ keqb x k = false) by (destruct (keqb x k); auto). destruct D as [D|D].
        * left. apply keqb_eq. exact D.
        * right. split; [exact A|]. intros [X|X]; [|tauto]. subst. rewrite (proj2 (keqb_eq k k) eq_refl) in D. discriminate.
  Qed.
  Lemma kdedup_NoDup l : forall seen, NoDup (kdedup K keqb seen l).
  Proof.
    induction l as [|x l IH]; intros seen; cbn; [constructor|]. destruct (existsb (keqb x) seen); [apply IH|]. constructor; [|apply IH].
    rewrite kdedup_In. cbn. tauto.
  Qed.

  (** A merged result.  When the metrics of the having clause are computed in sub queries that the request has anyway,
      from views those use anyway, they add no rows.  The columns are those of the request, of the having clause, and
      those that the merged metrics are computed from.  No order is applied. *)
  Theorem C73_merged r s l : merged r = Ok s ->
    (forall m, In m (qmetrics r) -> In (sub_of m) (snames (bare r))
       /\ In (view_of m) (map view_of (filter (fun x => String.eqb (sub_of x) (sub_of m)) (qmetrics (bare r))
                                        ++ dims_in (sub_of m) (q_dims r) ++ where_fields (where_in (sub_of m) (q_where r))))) ->
    answers before s l ->
    exists s0 s1, merged (bare r) = Ok s0 /\ merged (wide r) = Ok s1
      /\ (forall k, In k (map fst (st_rows K s1)) <-> In k (map fst (st_rows K s0))) /\ NoDup (map fst (st_rows K s0)) /\ NoDup (map fst (st_rows K s1))
      /\ (forall c, In c (st_columns K s) <-> exists m, In m (q_metrics r ++ having_fields (q_having r)) /\ (c = m \/ exists refs, merged_refs m = Some refs /\ In c refs))
      /\ asked before r [] (st_columns K s) (st_rows K s1) l.
  Proof.
    intros G SV A. destruct (merged_eq r) as (rows & E & RE). rewrite E in G.
    assert (OI := outer_inv _ _ _ _ _ _ G). destruct OI as (NT & C & OO & LM & RR & MS).
    destruct (mmetrics_wide r NT) as [MW QW].
    destruct (merged_eq (bare r)) as (rows0 & E0 & RE0). destruct (merged_eq (wide r)) as (rows1 & E1 & RE1).
    destruct (outer_none (dedup (qmetrics (bare r) ++ mmetrics (bare r))) (qmetrics (bare r)) rows0) as (s0 & S0 & R0).
    destruct (outer_none (dedup (qmetrics (wide r) ++ mmetrics (wide r))) (qmetrics (wide r)) rows1) as (s1 & S1 & R1).
    exists s0, s1. split; [rewrite E0; exact S0|]. split; [rewrite E1; exact S1|].
    assert (K0 : map fst (st_rows K s0) = merged_keys (bare r)) by (rewrite R0, RE0, map_map; unfold on_columns; cbn [fst]; apply keys_rows).
    assert (K1 : map fst (st_rows K s1) = merged_keys r).
    { rewrite R1, RE1, map_map. unfold on_columns. cbn [fst]. rewrite keys_rows. unfold merged_keys, sub_names, sub_rows, sub_request. cbn [q_dims q_where wide]. fold (wide r). rewrite QW. reflexivity. }
    assert (QI : forall m, In m (qmetrics (bare r)) -> In m (qmetrics r)).
    { intros m. unfold query_metrics. rewrite !dedup_In, !in_app_iff, !in_flat_map. unfold merged_metrics, secondary_metrics. rewrite (list_having r NT). cbn.
      intros [(x & X & Y)|X]; [left; exists x; split; [rewrite add_new_In; auto|exact Y]|right; rewrite add_new_In; auto]. }
    assert (VG : forall h, In h (snames r) -> In h (snames (bare r)) /\ groups (vws (look (sub_request r h))) (dims_in h (q_dims r)) (where_in h (q_where r)) = groups (vws (look (sub_request (bare r) h))) (dims_in h (q_dims r)) (where_in h (q_where r))).
    { intros h Hh. unfold sub_names in Hh. rewrite dedup_In, in_map_iff in Hh. destruct Hh as (m & <- & M). split; [apply SV; exact M|]. apply views_groups. apply views_set. intros v. unfold lookup. cbn [q_metrics q_dims q_where q_having q_order sub_request bare having_fields map]. fold (bare r).
      rewrite !app_nil_r, !in_map_iff. split; intros (x & <- & X); rewrite dedup_In in X.
      - rewrite in_app_iff in X. destruct X as [X|X].
        + apply filter_In in X. destruct X as [X EQ]. apply String.eqb_eq in EQ. destruct (SV x X) as [_ V]. rewrite EQ in V. rewrite in_map_iff in V. destruct V as (y & EY & Y). exists y. split; [exact EY|]. rewrite dedup_In. exact Y.
        + exists x. split; [reflexivity|]. rewrite dedup_In. apply in_or_app. auto.
      - exists x. split; [reflexivity|]. rewrite dedup_In. rewrite in_app_iff in *. destruct X as [X|X]; [left|auto]. apply filter_In in X. apply filter_In. destruct X. auto. }
    assert (KK : forall k, In k (merged_keys r) <-> In k (merged_keys (bare r))).
    { intros k. unfold merged_keys. rewrite !kdedup_In, !in_flat_map. split; intros [(h & Hh & Hk) N]; (split; [|exact N]).
      - destruct (VG h Hh) as [I EQ]. exists h. split; [exact I|]. unfold sub_rows in *. rewrite keys_rows in *. cbn [q_dims q_where sub_request bare] in *. fold (bare r). rewrite <- EQ. exact Hk.
      - assert (I : In h (snames r)). { unfold sub_names in *. rewrite dedup_In, in_map_iff in *. destruct Hh as (m & <- & M). exists m. split; [reflexivity|]. apply QI. exact M. }
        destruct (VG h I) as [_ EQ]. exists h. split; [exact I|]. unfold sub_rows in *. rewrite keys_rows in *. cbn [q_dims q_where sub_request bare] in *. fold (bare r) in *. rewrite EQ. exact Hk. }
    split; [intros k; rewrite K0, K1; apply KK|]. split; [rewrite K0; apply kdedup_NoDup|]. split; [rewrite K1; apply kdedup_NoDup|].
    split.
    { intros c. rewrite C, dedup_In, in_app_iff. unfold query_metrics. rewrite dedup_In, in_app_iff, in_flat_map.
      unfold merged_metrics, secondary_metrics. rewrite (list_having r NT). split.
      - intros [[(m & M & X)|X]|X].
        + exists m. rewrite add_new_In, !filter_In in M. rewrite in_app_iff. split; [tauto|]. right. destruct (merged_refs m); [eauto|destruct X].
        + exists c. rewrite add_new_In, !filter_In in X. rewrite in_app_iff. split; [tauto|auto].
        + exists c. rewrite add_new_In, !filter_In in X. rewrite in_app_iff. split; [tauto|auto].
      - intros (m & M & X). rewrite in_app_iff in M. destruct X as [->|(refs & R & X)].
        + destruct (ismerged m) eqn:B; [right|left; right]; rewrite add_new_In, !filter_In, B; cbn; tauto.
        + left. left. exists m. split; [|rewrite R; exact X]. rewrite add_new_In, !filter_In. unfold is_merged. rewrite R. tauto. }
    rewrite C. eapply asked_from; [exact G|exact R1| |exact A].
    exists K, (merged_keys r), (fun k => k), (fun k => map (fun m => (m, merged_cell r m k)) (dedup (qmetrics r ++ mmetrics r))), (fun k => map (fun m => (m, merged_cell r m k)) (dedup (qmetrics r ++ mmetrics r))).
    split; [exact RE|]. split.
    { rewrite RE1, QW, MW. assert (MK : merged_keys (wide r) = merged_keys r) by (unfold merged_keys, sub_names, sub_rows, sub_request; cbn [q_dims q_where wide]; fold (wide r); rewrite QW; reflexivity).
      rewrite MK. apply rows_ext. intros m k _. unfold merged_cell, sub_names, sub_rows, sub_request. cbn [q_dims q_where wide]. fold (wide r). rewrite QW. reflexivity. }
    intros k f _ F. split; [|reflexivity]. rewrite QW, MW. destruct F as [F|F]; [exact F|].
    rewrite dedup_In, in_app_iff. destruct (ismerged f) eqn:B.
    - right. unfold merged_metrics. rewrite (list_having r NT), add_new_In, !filter_In. auto.
    - left. unfold query_metrics, secondary_metrics. rewrite (list_having r NT), dedup_In, in_app_iff, add_new_In, !filter_In, B. auto.
  Qed.

  (** ** What is false *)
  Definition without_order (r : req) : req := Request (q_metrics r) (q_dims r) (q_where r) (q_having r) [] (q_limit r).
  (** An order cannot be asked of cumulative metrics or a funnel, where it is refused as if the primary key were among the
      dimensions, and a merged result ignores it *)
  Theorem C73_order_refuted r : q_order r <> [] ->
    ((exists m, In m (q_metrics r) /\ is_cumulative (metric m) = true) -> forall s, cumulative r <> Ok s)
    /\ (forall s, funnel r <> Ok s) /\ merged r = merged (without_order r).
  Proof.
    intros O. destruct (q_order r) as [|o os] eqn:OQ; [congruence|]. split; [|split].
    - intros (m & M & C) s G. unfold Result_Model.cumulative in G. apply bind_ok in G. destruct G as (ns & N & G). apply named_ok in N.
      assert (NE : sepc ns <> []) by (rewrite N; apply (sep_cumulative _ m); [apply in_or_app; auto|exact C]).
      destruct (separate_metrics (map metric ns)) as [cs ps]. cbn [fst] in NE. destruct cs as [|c cs]; [congruence|].
      cbn [mapM] in G. unfold accumulated, subquery, Result_Model.plain in G. rewrite OQ in G. cbn in G. discriminate.
    - intros s G. unfold Result_Model.funnel in G. apply bind_ok in G. destruct G as (hs & _ & G). apply bind_ok in G. destruct G as (sb & SB & _).
      unfold Result_Model.plain in SB. cbn in SB. rewrite OQ in SB. discriminate.
    - reflexivity.
  Qed.
  (** A having clause on a cumulative metric needs the metric in the request, and a warehouse where conditions can use
      the names of the select *)
  Theorem C73_cumulative_having_refuted r s f l : cumulative r = Ok s -> (exists m, In m (q_metrics r) /\ is_cumulative (metric m) = true) ->
    In f (having_fields (q_having r)) -> ~ In f (map cm_id (sepp (q_metrics r ++ having_fields (q_having r)))) ->
    ~ In f (q_metrics r) \/ alias_in_where = false -> ~ answers before s l.
  Proof.
    intros G (m & M & C) F NP AL (MS & _). assert (G0 := G). unfold Result_Model.cumulative in G0. apply bind_ok in G0. destruct G0 as (ns & N & G0).
    pose proof (named_ok _ _ N) as NE.
    assert (OE : q_order r = []). { destruct (q_order r) eqn:OQ; [reflexivity|]. exfalso. eapply (proj1 (C73_order_refuted r ltac:(congruence))); [exists m; eauto|exact G]. }
    rewrite (cumulative_eq r ns OE N) in G by (rewrite NE; apply (sep_cumulative _ m); [apply in_or_app; auto|exact C]).
    apply outer_inv in G. destruct G as (_ & _ & _ & _ & _ & X). rewrite MS in X. rewrite NE in X.
    assert (I : In f (filter (fun f => negb (mem f (map cm_id (sepp (q_metrics r ++ having_fields (q_having r))) ++ (if alias_in_where then q_metrics r else [])))) (having_fields (q_having r)))).
    { apply filter_In. split; [exact F|]. apply negb_true_iff, mem_false. rewrite in_app_iff. intros [Y|Y]; [tauto|]. destruct alias_in_where; [|exact Y]. destruct AL; [tauto|discriminate]. }
    rewrite <- X in I. exact I.
  Qed.
  (** Texts are errors in all three, groups of conditions in two of them *)
  Theorem C73_having_form_refuted r : (forall fs t, q_having r = HText fs t -> cumulative r = Err TypeError /\ funnel r = Err TypeError /\ merged r = Err TypeError)
    /\ (forall any l, q_having r = HList [HGroup any l] -> cumulative r = Err KeyError /\ funnel r = Err KeyError).
  Proof.
    split.
    - intros fs t H. unfold Result_Model.cumulative, named_metrics, Result_Model.funnel, having_metrics. rewrite H. split; [reflexivity|]. split; [reflexivity|].
      destruct (merged_eq r) as (rows & E & _). rewrite E, H. reflexivity.
    - intros any l H. unfold Result_Model.cumulative, named_metrics, Result_Model.funnel, having_metrics. rewrite H. split; reflexivity.
  Qed.
  (** With the primary key among the dimensions neither having nor order_by is possible; otherwise they always are *)
  Theorem C73_single_errors r : (forall b s, plain b (look r) r = Ok s -> b = true -> no_having (q_having r) /\ q_order r = [])
    /\ (exists s, plain false (look r) r = Ok s) /\ (~ no_having (q_having r) \/ q_order r <> [] -> plain true (look r) r = Err ArgumentError).
  Proof.
    pose proof (given_no (q_having r)) as N. unfold Result_Model.plain. split; [|split].
    - intros b s G ->. rewrite andb_true_r in G. destruct (given (q_having r)); cbn in G; [discriminate|]. destruct (q_order r); [tauto|discriminate].
    - rewrite andb_false_r. destruct (q_order r); eexists; reflexivity.
    - rewrite andb_true_r. destruct (given (q_having r)); cbn; [reflexivity|]. intros [H|H]; [tauto|]. destruct (q_order r); [congruence|reflexivity].
  Qed.
End Props.
Print Assumptions C73_single.
Print Assumptions C73_funnel.
Print Assumptions C73_cumulative.
Print Assumptions C73_merged.
Print Assumptions C73_order_refuted.
Print Assumptions C73_cumulative_having_refuted.
Print Assumptions C73_having_form_refuted.
Print Assumptions C73_single_errors.

(** ** A small project *)
Section Example.
  (** revenue and refunds of orders, sessions of visits, total_revenue is revenue accumulated; the groups are regions; the
      warehouse is Snowflake *)
  Let view_of f := if mem f ["visits.sessions"; "visits.region"] then "visits" else "orders".
  Let is_measure f := mem f ["orders.revenue"; "orders.refunds"; "visits.sessions"; "orders.total_revenue"; "per_session"].
  Let metric f := CM f (String.eqb f "orders.total_revenue") false [].
  Let where_fields (_ : unit) : list string := [].
  Let raw (vs : list string) (_ : unit) := ["1"; "2"; "3"].
  Let groups (vs ds : list string) (_ : unit) := if mem "visits" vs then ["north"; "west"] else ["north"; "south"].
  Let value (vs : list string) (_ : unit) (f k : string) : val :=
    if String.eqb f "visits.sessions" then Some 30%Z else if String.eqb f "orders.refunds" then (if String.eqb k "north" then Some 2%Z else Some 5%Z) else (if String.eqb k "north" then Some 10%Z else Some 20%Z).
  Let acc_groups (m : string) (ds : list string) (_ : unit) (ks : list string) := ["north"; "south"; "east"].
  Let acc_value (m : string) (ks : list string) (k : string) : val := if String.eqb k "north" then Some 100%Z else Some 7%Z.
  Let number (m : string) (v : string -> val) : val := match v "orders.revenue", v "visits.sessions" with Some a, Some b => Some (a + b)%Z | _, _ => None end.
  Let step_groups (ds ks : list string) := ["1 north"; "2 north"; "1 south"].
  Let step_value (m : string) (ks : list string) (k : string) : val := if String.eqb k "1 north" then Some 3%Z else Some 1%Z.
  Let merged_refs m := if String.eqb m "per_session" then Some ["orders.revenue"; "visits.sessions"] else None.
  Let before (o : ordering) (a b : string) : Prop := forall f, o = [(f, Desc)] -> match value [] tt f a, value [] tt f b with Some x, Some y => (y <= x)%Z | _, _ => True end.
  Notation single r := (plain unit string view_of is_measure raw groups value "SNOWFLAKE" false (lookup unit where_fields r) r).
  Notation funnel := (funnel unit string view_of is_measure where_fields raw groups value "SNOWFLAKE" true ["orders.date"] (fun _ => "orders.id") step_groups step_value).
  Notation cumulative a := (cumulative unit string String.eqb view_of is_measure where_fields raw groups value "SNOWFLAKE" a metric (fun w => w) (fun _ ds => ds) acc_groups acc_value number).
  Notation merged := (merged unit string String.eqb view_of is_measure where_fields raw groups value "SNOWFLAKE" true number merged_refs (fun m => view_of m) (fun _ ds => ds) (fun _ w => w)).
  Let more (n : Z) (v : val) : bool := match v with Some x => (n <? x)%Z | None => false end.
  Notation rows s := (map fst (st_rows string s)).

  (** revenue per region with more than 1 refunds, the largest first *)
  Example C73_example_single : exists s, single (Request ["orders.revenue"] ["orders.region"] tt (HList [HLeaf "orders.refunds" (more 1)]) [("orders.revenue", Desc)] (Some 1)) = Ok s
    /\ answers before s [("south", [("orders.revenue", Some 20%Z)])].
  Proof.
    eexists. split; [reflexivity|]. split; [reflexivity|]. exists [("south", [("orders.revenue", Some 20%Z)]); ("north", [("orders.revenue", Some 10%Z)])].
    split; [apply perm_swap|]. split; [|reflexivity]. right. cbn. repeat constructor. intros f E. injection E as <-. vm_compute. discriminate.
  Qed.
  (** persons' revenue per step with a condition on it *)
  Example C73_example_funnel : exists s, funnel (Request ["orders.revenue"] ["orders.region"] tt (HList [HLeaf "orders.refunds" (more 2)]) [] (Some 5)) = Ok s
    /\ rows s = ["1 north"] /\ st_columns string s = ["orders.revenue"; "orders.refunds"] /\ answers before s (st_rows string s).
  Proof. eexists. split; [reflexivity|]. split; [reflexivity|]. split; [reflexivity|]. split; [reflexivity|]. eexists. split; [apply Permutation_refl|]. split; [left; reflexivity|reflexivity]. Qed.
  Example C73_example_cumulative : exists s, cumulative true (Request ["orders.total_revenue"; "orders.revenue"] ["orders.region"] tt (HList [HLeaf "orders.total_revenue" (more 50); HLeaf "orders.refunds" (more 1)]) [] (Some 5)) = Ok s
    /\ rows s = ["north"] /\ answers before s (st_rows string s).
  Proof. eexists. split; [reflexivity|]. split; [reflexivity|]. split; [reflexivity|]. eexists. split; [apply Permutation_refl|]. split; [left; reflexivity|reflexivity]. Qed.
  Example C73_example_merged : exists s, merged (Request ["orders.revenue"; "visits.sessions"] ["region"] tt (HList [HGroup true [HLeaf "orders.refunds" (more 4); HLeaf "per_session" (more 35)]]) [] (Some 5)) = Ok s
    /\ rows s = ["north"; "south"] /\ answers before s (st_rows string s).
  Proof. eexists. split; [reflexivity|]. split; [reflexivity|]. split; [reflexivity|]. eexists. split; [apply Permutation_refl|]. split; [left; reflexivity|reflexivity]. Qed.

  (** A having clause can add rows: of a merged result, those of the sub query of its metric *)
  Theorem C73_merged_rows_refuted : exists r s s0, merged r = Ok s /\ merged (bare r) = Ok s0 /\ ~ In "west" (rows s0) /\ In "west" (rows s)
    /\ st_columns string s <> q_metrics r.
  Proof.
    exists (Request ["orders.revenue"] ["region"] tt (HList [HLeaf "visits.sessions" (more 1)]) [] None). do 2 eexists. split; [reflexivity|]. split; [reflexivity|].
    vm_compute. split; [|split; [tauto|discriminate]]. intros [H|[H|[]]]; discriminate.
  Qed.
  (** and remove rows that meet it: of cumulative metrics, those without a row of the other metric, though its condition
      holds for all rows *)
  Theorem C73_cumulative_rows_refuted : exists r s s0, cumulative true r = Ok s /\ cumulative true (bare r) = Ok s0
    /\ q_having r = HList [HLeaf "orders.refunds" (fun _ => true)] /\ In "east" (rows s0) /\ ~ In "east" (rows s).
  Proof.
    exists (Request ["orders.total_revenue"] ["orders.region"] tt (HList [HLeaf "orders.refunds" (fun _ => true)]) [] None). do 2 eexists. split; [reflexivity|]. split; [reflexivity|].
    split; [reflexivity|]. vm_compute. split; [tauto|]. intros [H|[H|[]]]; discriminate.
  Qed.
  (** of a single query, when the having clause brings in another view.  The data here are as when that view is the first
      of the FROM clause: groups without a row of it are lost, groups of it without an order appear *)
  Theorem C73_single_rows_refuted : exists r s s0, single r = Ok s /\ single (bare r) = Ok s0
    /\ q_having r = HList [HLeaf "visits.sessions" (fun _ => true)] /\ In "south" (rows s0) /\ ~ In "south" (rows s) /\ In "west" (rows s) /\ ~ In "west" (rows s0).
  Proof.
    exists (Request ["orders.revenue"] ["orders.region"] tt (HList [HLeaf "visits.sessions" (fun _ => true)]) [] None). do 2 eexists. split; [reflexivity|]. split; [reflexivity|].
    split; [reflexivity|]. vm_compute. repeat split; try tauto; intros [H|[H|[]]]; discriminate.
  Qed.
  (** A funnel shows a metric that is also in the having clause twice *)
  Theorem C73_funnel_columns_refuted : exists r s, funnel r = Ok s /\ q_metrics r = ["orders.revenue"] /\ st_columns string s = ["orders.revenue"; "orders.revenue"].
  Proof. exists (Request ["orders.revenue"] [] tt (HList [HLeaf "orders.revenue" (more 1)]) [] None). eexists. split; [reflexivity|]. split; reflexivity. Qed.
End Example.
Print Assumptions C73_merged_rows_refuted.
Print Assumptions C73_cumulative_rows_refuted.
Print Assumptions C73_single_rows_refuted.
Print Assumptions C73_funnel_columns_refuted.
