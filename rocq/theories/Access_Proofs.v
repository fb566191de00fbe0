(** Proofs for C01-C03. *)
From Verif Require Import PyBase PyStr Core_Model Access_Spec.
Local Open Scope string_scope.
Local Open Scope list_scope.

Lemma get_access_grant_ok p n g : get_access_grant p n = Ok g <-> grant_named p n g.
Proof.
  unfold get_access_grant, grant_named. destruct (find _ (p_grants p)) as [g'|] eqn:E.
  - apply find_split in E. destruct E as (pre & post & Hg & Hn & Hpre). apply String.eqb_eq in Hn.
    split.
    + intros H; injection H as <-. exists pre, post. split; [exact Hg|]. split; [exact Hn|].
      intros Hin. apply in_map_iff in Hin. destruct Hin as (h & Hh & Hin).
      apply Hpre in Hin. rewrite Hh, String.eqb_refl in Hin. discriminate.
    + intros (pre' & post' & Hg' & Hn' & Hpre').
      enough (Some g' = Some g) as Heq by (injection Heq as ->; reflexivity).
      rewrite <- (proj2 (find_split (fun h => String.eqb (g_name h) n) (p_grants p) g')).
      * apply find_split. exists pre', post'. split; [exact Hg'|]. split; [apply String.eqb_eq; exact Hn'|].
        intros y Hy. apply String.eqb_neq. intros Hyn. apply Hpre'. rewrite <- Hyn.
        apply in_map; exact Hy.
      * exists pre, post. split; [exact Hg|]. split; [apply String.eqb_eq; exact Hn|exact Hpre].
  - split; [discriminate|]. intros (pre & post & Hg & Hn & _).
    rewrite Hg in E. assert (H := proj1 (find_None _ _) E g). cbv beta in H.
    rewrite Hn, String.eqb_refl in H. exfalso. enough (true = false) by discriminate.
    apply H. apply in_or_app. right; left; reflexivity.
Qed.

Lemma get_access_grant_err p n e :
  get_access_grant p n = Err e <-> e = QueryError /\ ~ In n (map g_name (p_grants p)).
Proof.
  unfold get_access_grant. destruct (find _ (p_grants p)) as [g'|] eqn:E.
  - apply find_split in E. destruct E as (pre & post & Hg & Hn & Hpre). apply String.eqb_eq in Hn.
    split; [discriminate|]. intros [_ H]. exfalso. apply H. rewrite Hg, map_app. apply in_or_app.
    right; left; exact Hn.
  - split.
    + intros H; injection H as <-. split; [reflexivity|]. intros Hin. apply in_map_iff in Hin.
      destruct Hin as (g & Hg & Hin). assert (H := proj1 (find_None _ _) E g Hin). simpl in H.
      rewrite Hg, String.eqb_refl in H. discriminate.
    + intros [-> _]. reflexivity.
Qed.

Lemma grant_decision_spec u g : grant_decision u g = true <-> grant_satisfied u g.
Proof.
  unfold grant_decision, grant_satisfied, carries.
  destruct (assoc (g_attr g) u) as [[v|]|] eqn:E.
  - rewrite mem_In. split.
    + intros H w Hw. apply assoc_split in Hw. rewrite E in Hw. injection Hw as <-. exact H.
    + intros H. apply H. apply assoc_split. exact E.
  - split; [|reflexivity]. intros _ w Hw. apply assoc_split in Hw. rewrite E in Hw. discriminate.
  - split; [|reflexivity]. intros _ w Hw. apply assoc_split in Hw. rewrite E in Hw. discriminate.
Qed.

Lemma grant_named_unique p n g g' : grant_named p n g -> grant_named p n g' -> g = g'.
Proof.
  intros H H'. apply get_access_grant_ok in H. apply get_access_grant_ok in H'. congruence.
Qed.

Lemma can_access_object_unfold p r u :
  p_user p = Some u ->
  can_access_object p r =
  (ds <- mapM (fun n => g <- get_access_grant p n ;; Ok (grant_decision u g)) r ;;
   Ok (forallb (fun b => b) ds)).
Proof. intros H. unfold can_access_object. rewrite H. destruct r; reflexivity. Qed.

Lemma forall2_forallb {A} (f : A -> res bool) l ds :
  Forall2 (fun x y => f x = Ok y) l ds ->
  (forallb (fun b => b) ds = true <-> forall x, In x l -> f x = Ok true).
Proof.
  induction 1 as [|x d l ds Hx _ IH]; simpl.
  - split; [intros _ ? []|reflexivity].
  - rewrite andb_true_iff, IH. split.
    + intros [-> H] y [<-|Hy]; auto.
    + intros H. split; [|auto]. assert (H1 := H x (or_introl eq_refl)). congruence.
Qed.

Lemma can_access_object_true p r : can_access_object p r = Ok true <-> permitted p r.
Proof.
  destruct (p_user p) as [u|] eqn:Eu.
  - rewrite (can_access_object_unfold p r u Eu). rewrite bind_ok. split.
    + intros (ds & Hds & H) u' Hu' n Hn. rewrite Eu in Hu'. injection Hu' as <-.
      injection H as H. apply mapM_ok in Hds. apply (proj1 (forall2_forallb _ _ _ Hds) H) in Hn.
      apply bind_ok in Hn. destruct Hn as (g & Hg & Hd). injection Hd as Hd.
      exists g. split; [apply get_access_grant_ok; exact Hg|apply grant_decision_spec; exact Hd].
    + intros H. specialize (H u Eu). clear Eu.
      induction r as [|n r IH].
      * exists []. split; reflexivity.
      * destruct (H n (or_introl eq_refl)) as (g & Hg & Hs).
        destruct IH as (ds & Hds & Ha); [intros m Hm; apply H; right; exact Hm|].
        exists (true :: ds). simpl. apply get_access_grant_ok in Hg. rewrite Hg. simpl.
        apply grant_decision_spec in Hs. rewrite Hs, Hds. simpl. split; [reflexivity|exact Ha].
  - unfold can_access_object. rewrite Eu. split; [|reflexivity].
    intros _ u Hu. congruence.
Qed.

Lemma can_access_object_err p r e :
  can_access_object p r = Err e <-> e = QueryError /\ names_unknown_grant p r.
Proof.
  unfold names_unknown_grant. destruct (p_user p) as [u|] eqn:Eu.
  - rewrite (can_access_object_unfold p r u Eu). rewrite bind_err. split.
    + intros [H|(ds & _ & H)]; [|discriminate].
      apply mapM_err in H. destruct H as (n & Hn & H). apply bind_err in H.
      destruct H as [H|(g & _ & H)]; [|discriminate].
      apply get_access_grant_err in H. destruct H as [-> H].
      split; [reflexivity|]. split; [discriminate|]. exists n; auto.
    + intros [-> (_ & n & Hn & Hu)]. left.
      destruct (mapM _ r) as [ds|e'] eqn:E.
      * exfalso. apply mapM_ok in E. clear Eu. revert E. generalize ds. clear ds.
        induction r as [|m r IH]; [destruct Hn|]. intros ds E. inversion E as [|x d l ds' H1 H2]; subst.
        destruct Hn as [->|Hn]; [|exact (IH Hn ds' H2)].
        apply bind_ok in H1. destruct H1 as (g & Hg & _).
        assert (Hq := proj2 (get_access_grant_err p n QueryError) (conj eq_refl Hu)). congruence.
      * apply mapM_err in E. destruct E as (m & Hm & H). apply bind_err in H.
        destruct H as [H|(g & _ & H)]; [|discriminate].
        apply get_access_grant_err in H. destruct H as [-> _]. reflexivity.
  - unfold can_access_object. rewrite Eu. split; [discriminate|]. intros (_ & H & _). congruence.
Qed.

Lemma not_both p r : permitted p r -> ~ names_unknown_grant p r.
Proof.
  intros H1 H2. apply can_access_object_true in H1.
  assert (H := proj2 (can_access_object_err p r QueryError) (conj eq_refl H2)). congruence.
Qed.

(* ------------------------------------------------------------ listings *)

Lemma views_spec p sh vs :
  views p sh = Ok vs ->
  (exists keep, vs = filter keep (p_views p)) /\
  forall v, In v vs <-> In v (p_views p) /\ permitted p (vd_grants v) /\ (sh = true \/ vd_hidden v = false).
Proof.
  unfold views. intros H. apply filterM_ok in H. destruct H as [_ ->].
  split; [eexists; reflexivity|]. intros v. rewrite filter_In.
  unfold can_access_view.
  destruct (can_access_object p (vd_grants v)) as [b|e] eqn:E; simpl.
  - destruct b; simpl.
    + apply can_access_object_true in E. destruct sh, (vd_hidden v); simpl; intuition congruence.
    + split; [intros [_ H]; discriminate|]. intros (_ & H & _). apply can_access_object_true in H. congruence.
  - split; [intros [_ H]; discriminate|]. intros (_ & H & _). apply can_access_object_true in H. congruence.
Qed.

Lemma views_err p sh e :
  views p sh = Err e <-> e = QueryError /\ exists v, In v (p_views p) /\ names_unknown_grant p (vd_grants v).
Proof.
  unfold views. split.
  - intros H. apply filterM_err in H. destruct H as (v & Hv & H). apply bind_err in H.
    destruct H as [H|(b & _ & H)]; [|discriminate]. apply can_access_object_err in H.
    destruct H as [-> H]. eauto.
  - intros [-> (v & Hv & H)]. destruct (filterM _ (p_views p)) as [vs|e] eqn:E.
    + apply filterM_ok in E. destruct E as [E _]. destruct (E v Hv) as [b Hb].
      apply bind_ok in Hb. destruct Hb as (b' & Hb & _). unfold can_access_view in Hb.
      assert (Hq := proj2 (can_access_object_err _ _ QueryError) (conj eq_refl H)). congruence.
    + apply filterM_err in E. destruct E as (w & _ & E). apply bind_err in E.
      destruct E as [E|(b & _ & E)]; [|discriminate]. apply can_access_object_err in E.
      destruct E as [-> _]. reflexivity.
Qed.

Lemma dashboards_spec p ds :
  dashboards p = Ok ds ->
  (exists keep, ds = filter keep (p_dashboards p)) /\
  forall d, In d ds <-> In d (p_dashboards p) /\ permitted p (dd_grants d).
Proof.
  unfold dashboards. intros H. apply filterM_ok in H. destruct H as [_ ->].
  split; [eexists; reflexivity|]. intros d. rewrite filter_In, <- can_access_object_true.
  destruct (can_access_object p (dd_grants d)) as [[]|]; intuition congruence.
Qed.

Lemma dashboards_err p e :
  dashboards p = Err e <-> e = QueryError /\ exists d, In d (p_dashboards p) /\ names_unknown_grant p (dd_grants d).
Proof.
  unfold dashboards. split.
  - intros H. apply filterM_err in H. destruct H as (v & Hv & H). apply can_access_object_err in H.
    destruct H as [-> H]. eauto.
  - intros [-> (v & Hv & H)]. destruct (filterM _ (p_dashboards p)) as [vs|e] eqn:E.
    + apply filterM_ok in E. destruct E as [E _]. destruct (E v Hv) as [b Hb].
      assert (Hq := proj2 (can_access_object_err _ _ QueryError) (conj eq_refl H)). congruence.
    + apply filterM_err in E. destruct E as (w & _ & E). apply can_access_object_err in E.
      destruct E as [-> _]. reflexivity.
Qed.

Lemma get_view_ok p n v :
  get_view p n = Ok v <->
  (forall w, In w (p_views p) -> ~ names_unknown_grant p (vd_grants w)) /\
  exists pre post, p_views p = pre ++ v :: post /\ vd_name v = n /\ permitted p (vd_grants v) /\
    forall w, In w pre -> vd_name w = n -> ~ permitted p (vd_grants w).
Proof.
  unfold get_view. rewrite bind_ok. split.
  - intros (vs & Hvs & H). split.
    { intros w Hw Hu. assert (Hq := proj2 (views_err p true QueryError) (conj eq_refl (ex_intro _ w (conj Hw Hu)))).
      congruence. }
    destruct (find _ vs) as [v'|] eqn:E; [|discriminate]. injection H as ->.
    unfold views in Hvs. apply filterM_ok in Hvs. destruct Hvs as [_ ->].
    set (k := fun x : view_def => match _ with Ok true => true | _ => false end) in E.
    assert (Hk : forall x, k x = true <-> permitted p (vd_grants x)).
    { intros x. unfold k. rewrite <- can_access_object_true. unfold can_access_view.
      destruct (can_access_object p (vd_grants x)) as [[]|]; simpl; intuition congruence. }
    revert E. generalize (p_views p) as l. clearbody k. intros l.
    induction l as [|x l IH]; simpl; [discriminate|].
    destruct (k x) eqn:Ek.
    + simpl. destruct (String.eqb (vd_name x) n) eqn:En.
      * intros H; injection H as ->. exists [], l. split; [reflexivity|].
        split; [apply String.eqb_eq; exact En|]. split; [apply Hk; exact Ek|]. intros w [].
      * intros H. destruct (IH H) as (pre & post & -> & H1 & H2 & H3).
        exists (x :: pre), post. split; [reflexivity|]. split; [exact H1|]. split; [exact H2|].
        intros w [<-|Hw]; [|auto]. intros Hn. rewrite Hn, String.eqb_refl in En. discriminate.
    + intros H. destruct (IH H) as (pre & post & -> & H1 & H2 & H3).
      exists (x :: pre), post. split; [reflexivity|]. split; [exact H1|]. split; [exact H2|].
      intros w [<-|Hw]; [|auto]. intros _ Hp. apply Hk in Hp. congruence.
  - intros [Hu (pre & post & Hl & Hn & Hp & Hpre)].
    destruct (views p true) as [vs|e] eqn:E.
    + exists vs. split; [reflexivity|].
      unfold views in E. apply filterM_ok in E. destruct E as [_ ->].
      set (k := fun x : view_def => match _ with Ok true => true | _ => false end).
      assert (Hk : forall x, k x = true <-> permitted p (vd_grants x)).
      { intros x. unfold k. rewrite <- can_access_object_true. unfold can_access_view.
        destruct (can_access_object p (vd_grants x)) as [[]|]; simpl; intuition congruence. }
      clearbody k. rewrite Hl.
      assert (Hf : find (fun x => String.eqb (vd_name x) n) (filter k (pre ++ v :: post)) = Some v).
      { rewrite filter_app. simpl. rewrite (proj2 (Hk v) Hp).
        apply find_split. exists (filter k pre), (filter k post). split; [reflexivity|].
        split; [apply String.eqb_eq; exact Hn|]. intros y Hy. apply filter_In in Hy.
        destruct Hy as [Hy1 Hy2]. apply String.eqb_neq. intros Hyn.
        apply (Hpre y Hy1 Hyn). apply Hk; exact Hy2. }
      rewrite Hf. reflexivity.
    + apply views_err in E. destruct E as [_ (w & Hw & H)]. exfalso. exact (Hu w Hw H).
Qed.

Lemma get_view_sound p n v :
  get_view p n = Ok v -> In v (p_views p) /\ vd_name v = n /\ permitted p (vd_grants v).
Proof.
  intros H. apply get_view_ok in H. destruct H as [_ (pre & post & -> & H1 & H2 & _)].
  split; [apply in_or_app; right; left; reflexivity|auto].
Qed.

Lemma get_view_err p n e :
  get_view p n = Err e ->
  (e = QueryError /\ exists v, In v (p_views p) /\ names_unknown_grant p (vd_grants v)) \/
  (e = AccessDenied /\ forall v, In v (p_views p) -> vd_name v = n -> ~ permitted p (vd_grants v)).
Proof.
  unfold get_view. rewrite bind_err. intros [H|(vs & Hvs & H)].
  - left. apply views_err in H. exact H.
  - right. destruct (find _ vs) as [v|] eqn:E; [discriminate|]. injection H as <-.
    split; [reflexivity|]. intros v Hv Hn Hp. apply views_spec in Hvs. destruct Hvs as [_ Hvs].
    assert (Hin : In v vs) by (apply Hvs; auto).
    assert (H := proj1 (find_None _ _) E v Hin). simpl in H. rewrite Hn, String.eqb_refl in H. discriminate.
Qed.

Lemma expand_field_spec v fd e f : In f (expand_field v fd e) <-> stands_for v fd e f.
Proof.
  unfold expand_field. split.
  - destruct e.
    + destruct (fd_kind fd) eqn:K; simpl.
      * intros [<-|[]]. constructor. right; congruence.
      * intros [<-|[]]. constructor. right; congruence.
      * destruct (fd_timeframes fd) as [|t ts] eqn:T.
        -- intros H. apply in_map_iff in H. destruct H as (i & <- & Hi). apply sf_interval; auto.
        -- rewrite <- T. intros H. apply in_map_iff in H. destruct H as (i & <- & Hi). apply sf_timeframe; auto.
    + simpl. intros [<-|[]]. constructor. left; reflexivity.
  - intros H. destruct H as [e He|t K Ht|i K T Hi].
    + destruct e; [|left; reflexivity]. destruct He as [He|He]; [discriminate|].
      destruct (fd_kind fd); [left; reflexivity..|congruence].
    + rewrite K. destruct (fd_timeframes fd) eqn:T; [destruct Ht|]. rewrite <- T in *.
      apply in_map_iff. exists t; auto.
    + rewrite K, T. apply in_map_iff. exists i; auto.
Qed.

Lemma can_access_field_true p v fd : can_access_field p v fd = Ok true <-> field_permitted p v fd.
Proof.
  unfold can_access_field, field_permitted, can_access_view.
  rewrite <- !can_access_object_true.
  destruct (can_access_object p (vd_grants v)) as [[]|]; simpl; [| |intuition congruence];
  destruct (can_access_object p (fd_grants fd)) as [[]|]; simpl; intuition congruence.
Qed.

Lemma can_access_field_err p v fd e :
  can_access_field p v fd = Err e ->
  e = QueryError /\ (names_unknown_grant p (vd_grants v) \/ names_unknown_grant p (fd_grants fd)).
Proof.
  unfold can_access_field, can_access_view. intros H. apply bind_err in H.
  destruct H as [H|(b & _ & H)].
  - apply can_access_object_err in H. tauto.
  - apply bind_err in H. destruct H as [H|(b' & _ & H)]; [|discriminate].
    apply can_access_object_err in H. tauto.
Qed.

Lemma view_all_fields_In p v e fs :
  view_all_fields p v e = Ok fs ->
  forall f, In f fs <-> exists fd, In fd (vd_fields v) /\ field_permitted p v fd /\ stands_for v fd e f.
Proof.
  unfold view_all_fields. intros H f. rewrite (concatM_ok_In _ _ _ H f). split.
  - intros (fd & zs & Hfd & Hz & Hf). apply bind_ok in Hz. destruct Hz as ([] & Hb & Hz).
    + injection Hz as <-. exists fd. split; [exact Hfd|].
      split; [apply can_access_field_true; exact Hb|apply expand_field_spec; exact Hf].
    + injection Hz as <-. destruct Hf.
  - intros (fd & Hfd & Hp & Hs). exists fd, (expand_field v fd e).
    apply can_access_field_true in Hp. rewrite Hp. simpl.
    split; [exact Hfd|]. split; [reflexivity|apply expand_field_spec; exact Hs].
Qed.

Lemma view_fields_In p v sh e fs :
  view_fields p v sh e = Ok fs ->
  forall f, In f fs <->
    (exists fd, In fd (vd_fields v) /\ field_permitted p v fd /\ stands_for v fd e f) /\
    (sh = true \/ fo_hidden f = false).
Proof.
  unfold view_fields. intros H f. apply bind_ok in H. destruct H as (gs & Hg & H).
  injection H as <-. assert (HI := view_all_fields_In _ _ _ _ Hg f).
  destruct sh.
  - rewrite HI. intuition.
  - rewrite filter_In, HI, negb_true_iff. intuition congruence.
Qed.

Lemma view_fields_err p v sh e x :
  view_fields p v sh e = Err x ->
  x = QueryError /\ exists fd, In fd (vd_fields v) /\
    (names_unknown_grant p (vd_grants v) \/ names_unknown_grant p (fd_grants fd)).
Proof.
  unfold view_fields, view_all_fields. intros H. apply bind_err in H. destruct H as [H|(b & _ & H)]; [|discriminate].
  apply concatM_err in H. destruct H as (fd & Hfd & H). apply bind_err in H.
  destruct H as [H|(b & _ & H)]; [|discriminate].
  apply can_access_field_err in H. destruct H as [-> H]. eauto.
Qed.

Lemma fields_all_In p sh e fs :
  fields p None sh e = Ok fs ->
  forall f, In f fs <-> visible_field p e f /\ (sh = true \/ fo_hidden f = false).
Proof.
  simpl. intros H f. apply bind_ok in H. destruct H as (vs & Hvs & H).
  apply views_spec in Hvs. destruct Hvs as [_ Hvs].
  rewrite (concatM_ok_In _ _ _ H f). unfold visible_field. split.
  - intros (v & zs & Hv & Hz & Hf). apply (view_fields_In _ _ _ _ _ Hz) in Hf.
    destruct Hf as [(fd & H1 & H2 & H3) H4]. split; [|exact H4].
    exists v, fd. split; [apply Hvs in Hv; tauto|auto].
  - intros [(v & fd & H1 & H2 & H3 & H4) H5].
    assert (Hv : In v vs) by (apply Hvs; unfold field_permitted in H3; tauto).
    destruct (concatM_ok_all _ _ _ H v Hv) as [zs Hz]. exists v, zs.
    split; [exact Hv|]. split; [exact Hz|]. apply (view_fields_In _ _ _ _ _ Hz). eauto.
Qed.

Lemma fields_view_In p n sh e fs :
  fields p (Some n) sh e = Ok fs ->
  exists v, get_view p n = Ok v /\
  forall f, In f fs <->
    (exists fd, In fd (vd_fields v) /\ field_permitted p v fd /\ stands_for v fd e f) /\
    (sh = true \/ fo_hidden f = false).
Proof.
  simpl. intros H. apply bind_ok in H. destruct H as (v & Hv & H). exists v. split; [exact Hv|].
  apply view_fields_In; exact H.
Qed.

Lemma fields_sound p vn sh e fs f :
  fields p vn sh e = Ok fs -> In f fs ->
  visible_field p e f /\ (forall n, vn = Some n -> fo_view f = n) /\ (sh = true \/ fo_hidden f = false).
Proof.
  intros H Hf. destruct vn as [n|].
  - destruct (fields_view_In _ _ _ _ _ H) as (v & Hv & HI). apply HI in Hf.
    destruct Hf as [(fd & H1 & H2 & H3) H4]. apply get_view_sound in Hv. destruct Hv as (Hv1 & Hv2 & Hv3).
    split; [exists v, fd; auto|]. split; [|exact H4].
    intros n' Hn'. injection Hn' as <-. destruct H3; exact Hv2.
  - apply (fields_all_In _ _ _ _ H) in Hf. destruct Hf as [H1 H2]. split; [exact H1|]. split; [discriminate|exact H2].
Qed.

Lemma fields_err_kind p vn sh e x :
  fields p vn sh e = Err x -> x = QueryError \/ (x = AccessDenied /\ vn <> None).
Proof.
  destruct vn as [n|]; simpl; intros H; apply bind_err in H; destruct H as [H|(v & _ & H)].
  - apply get_view_err in H. destruct H as [[-> _]|[-> _]]; [left; reflexivity|right; split; [reflexivity|discriminate]].
  - apply view_fields_err in H. tauto.
  - apply views_err in H. tauto.
  - apply concatM_err in H. destruct H as (w & _ & H). apply view_fields_err in H. tauto.
Qed.

(* ------------------------------------------------------------ lookups *)

Lemma handler_sound p m n vn f :
  matching_field_handler p m n vn = Ok f ->
  m = [f] \/ (m = [] /\ n = "count" /\ implicit_count p f /\ vn = Some (fo_view f)).
Proof.
  unfold matching_field_handler. destruct m as [|a [|b r]].
  - destruct vn as [v|]; [|discriminate].
    destruct (String.eqb n "count" && negb (String.eqb v "")) eqn:E; [|discriminate].
    apply andb_true_iff in E. destruct E as [E _]. apply String.eqb_eq in E.
    intros H. apply bind_ok in H. destruct H as (vd & Hv & H). injection H as <-.
    right. split; [reflexivity|]. split; [exact E|]. apply get_view_sound in Hv.
    destruct Hv as (H1 & H2 & H3). simpl. split; [exists vd; auto|congruence].
  - intros H; injection H as ->. left; reflexivity.
  - discriminate.
Qed.

Lemma filter_singleton_In {A} (f : A -> bool) l x : filter f l = [x] -> In x l /\ f x = true.
Proof. intros H. apply filter_In. rewrite H. left; reflexivity. Qed.

Lemma get_field_sound p fn vn f :
  get_field p fn vn = Ok f -> visible_field p true f \/ implicit_count p f.
Proof.
  unfold get_field. intros H. apply bind_ok in H. destruct H as ([n v] & _ & H). simpl in H.
  apply bind_ok in H. destruct H as (fs & Hfs & H). apply handler_sound in H.
  destruct H as [H|H]; [|right; tauto].
  apply filter_singleton_In in H. destruct H as [H _].
  left. exact (proj1 (fields_sound _ _ _ _ _ _ Hfs H)).
Qed.

Lemma get_field_by_name_sound p fn vn f :
  get_field_by_name p fn vn = Ok f -> visible_field p false f \/ implicit_count p f.
Proof.
  unfold get_field_by_name. intros H. apply bind_ok in H. destruct H as ([n v] & _ & H). simpl in H.
  apply bind_ok in H. destruct H as (fs & Hfs & H). apply handler_sound in H.
  destruct H as [H|H]; [|right; tauto].
  apply filter_singleton_In in H. destruct H as [H _].
  left. exact (proj1 (fields_sound _ _ _ _ _ _ Hfs H)).
Qed.

Lemma get_field_by_tag_sound jg p t vn jgs f :
  get_field_by_tag jg p t vn jgs = Ok f -> visible_field p true f \/ implicit_count p f.
Proof.
  unfold get_field_by_tag. destruct (String.eqb t ""); [discriminate|].
  intros H. apply bind_ok in H. destruct H as (fs & Hfs & H).
  apply handler_sound in H. destruct H as [H|H]; [|right; tauto].
  left. apply (proj1 (fields_sound _ _ _ _ _ f Hfs
    ltac:(destruct jgs as [[|j js]|];
          repeat (apply filter_singleton_In in H; destruct H as [H ?]);
          [ exact H | apply filter_In in H; tauto | exact H ]))).
Qed.

Lemma dg_expanded v fd f : stands_for v fd true f -> fd_kind (fo_def f) = DimGroup -> fo_dg f <> None.
Proof.
  intros H K. inversion H as [e He E1 E2|t K' Ht E1|i K' T Hi E1]; subst; simpl in *.
  - destruct He as [He|He]; [discriminate|contradiction].
  - discriminate.
  - discriminate.
Qed.

Lemma equal_addressed p f n :
  visible_field p true f -> has_char dot n = false ->
  (fst (equal f n) = true <-> addressed_as f n).
Proof.
  intros (v & fd & _ & _ & _ & Hs) Hn. unfold equal, addressed_as.
  rewrite (field_name_parts_plain n Hn).
  pose proof (dg_expanded v fd f Hs) as Hdg.
  destruct (fd_kind (fo_def f)) eqn:K.
  - simpl. rewrite String.eqb_eq. unfold fo_name. split; congruence.
  - simpl. rewrite String.eqb_eq. unfold fo_name. split; congruence.
  - specialize (Hdg eq_refl). destruct (fo_dg f) as [d|] eqn:D; [|congruence].
    simpl. unfold alias, fo_name. rewrite K, D, String.eqb_eq. clear.
    destruct (String.eqb (fd_type (fo_def f)) "time"); [split; intros H; exact (eq_sym H)|].
    destruct (String.eqb (fd_type (fo_def f)) "duration"); split; intros H; exact (eq_sym H).
Qed.

Section GetField.
  Variables (p : project) (n : string) (vn : option string).
  Hypothesis Hn : has_char dot n = false.

  Let Hln : has_char dot (lower n) = false.
  Proof. rewrite has_char_lower_dot. exact Hn. Qed.

  Lemma get_field_plain_unfold :
    get_field p n vn =
    (fs <- fields p vn true true ;;
     matching_field_handler p (filter (fun f => fst (equal f (lower n))) fs) (lower n) vn).
  Proof. unfold get_field, parse_field_and_view_name. rewrite Hn. reflexivity. Qed.

  Lemma match_bool fs f :
    fields p vn true true = Ok fs -> In f fs ->
    (fst (equal f (lower n)) = true <-> addressed_as f (lower n)).
  Proof.
    intros H Hf. eapply equal_addressed; [|exact Hln]. exact (proj1 (fields_sound _ _ _ _ _ _ H Hf)).
  Qed.

  Lemma match_bool_false fs f :
    fields p vn true true = Ok fs -> In f fs ->
    (fst (equal f (lower n)) = false <-> ~ addressed_as f (lower n)).
  Proof.
    intros H Hf. rewrite <- (match_bool fs f H Hf). destruct (fst (equal f (lower n))); intuition congruence.
  Qed.

  Lemma get_field_ok_iff f :
    get_field p n vn = Ok f <->
    exists fs, fields p vn true true = Ok fs /\
    ((exists l1 l2, fs = l1 ++ f :: l2 /\ addressed_as f (lower n) /\
        forall g, In g (l1 ++ l2) -> ~ addressed_as g (lower n)) \/
     ((forall g, In g fs -> ~ addressed_as g (lower n)) /\ lower n = "count" /\
      exists v vd, vn = Some v /\ v <> "" /\ get_view p v = Ok vd /\
                   f = FieldObj (vd_name vd) count_def None false)).
  Proof.
    rewrite get_field_plain_unfold, bind_ok. split.
    - intros (fs & Hfs & H). exists fs. split; [exact Hfs|].
      unfold matching_field_handler in H.
      destruct (filter _ fs) as [|a [|b r]] eqn:E; [| |discriminate].
      + right. split.
        { intros g Hg. apply (match_bool_false fs g Hfs Hg). exact (proj1 (filter_nil _ _) E g Hg). }
        destruct vn as [v|]; [|discriminate].
        destruct (String.eqb (lower n) "count" && negb (String.eqb v "")) eqn:C; [|discriminate].
        apply andb_true_iff in C. destruct C as [C1 C2]. apply String.eqb_eq in C1.
        apply negb_true_iff in C2. apply String.eqb_neq in C2.
        apply bind_ok in H. destruct H as (vd & Hv & H). injection H as <-.
        split; [exact C1|]. exists v, vd. auto.
      + injection H as ->. left. apply filter_one in E. destruct E as (l1 & l2 & -> & Hf & Hr).
        assert (Hin : forall g, In g (l1 ++ l2) -> In g (l1 ++ f :: l2)).
        { intros g Hg. apply in_app_iff in Hg. apply in_or_app. simpl. tauto. }
        exists l1, l2. split; [reflexivity|]. split.
        * refine (proj1 (match_bool _ f Hfs _) Hf). apply in_or_app; right; left; reflexivity.
        * intros g Hg. refine (proj1 (match_bool_false _ g Hfs (Hin g Hg)) (Hr g Hg)).
    - intros (fs & Hfs & H). exists fs. split; [exact Hfs|].
      destruct H as [(l1 & l2 & -> & Hf & Hr)|(Hr & Hc & v & vd & Evn & Hv & Hvd & ->)].
      + assert (Hin : forall g, In g (l1 ++ l2) -> In g (l1 ++ f :: l2)).
        { intros g Hg. apply in_app_iff in Hg. apply in_or_app. simpl. tauto. }
        rewrite (proj2 (filter_one _ _ f)); [reflexivity|].
        exists l1, l2. split; [reflexivity|]. split.
        * refine (proj2 (match_bool _ f Hfs _) Hf). apply in_or_app; right; left; reflexivity.
        * intros g Hg. exact (proj2 (match_bool_false _ g Hfs (Hin g Hg)) (Hr g Hg)).
      + rewrite (proj2 (filter_nil _ _)).
        * simpl. rewrite Evn, Hc. simpl. apply String.eqb_neq in Hv. rewrite Hv. simpl.
          rewrite Hvd. reflexivity.
        * intros g Hg. exact (proj2 (match_bool_false _ g Hfs Hg) (Hr g Hg)).
  Qed.

  Lemma get_field_ambiguous fs :
    fields p vn true true = Ok fs ->
    (get_field p n vn = Err QueryError <->
     exists l1 f l2 g l3, fs = l1 ++ f :: l2 ++ g :: l3 /\
       addressed_as f (lower n) /\ addressed_as g (lower n)).
  Proof.
    intros Hfs. rewrite get_field_plain_unfold, Hfs. simpl.
    set (b := fun f => fst (equal f (lower n))).
    assert (HM : (exists x y r, filter b fs = x :: y :: r) <->
                 exists l1 f l2 g l3, fs = l1 ++ f :: l2 ++ g :: l3 /\
                   addressed_as f (lower n) /\ addressed_as g (lower n)).
    { rewrite filter_many. split; intros (l1 & f & l2 & g & l3 & E & Hf & Hg);
        exists l1, f, l2, g, l3; (split; [exact E|]).
      - split; [refine (proj1 (match_bool fs f Hfs _) Hf)|refine (proj1 (match_bool fs g Hfs _) Hg)];
          subst fs; apply in_or_app; right; simpl; [left; reflexivity|right; apply in_or_app; right; left; reflexivity].
      - split; [refine (proj2 (match_bool fs f Hfs _) Hf)|refine (proj2 (match_bool fs g Hfs _) Hg)];
          subst fs; apply in_or_app; right; simpl; [left; reflexivity|right; apply in_or_app; right; left; reflexivity]. }
    rewrite <- HM. split.
    - destruct (filter b fs) as [|x [|y r]] eqn:E; simpl.
      + destruct vn as [v|]; [|discriminate].
        destruct (String.eqb (lower n) "count" && negb (String.eqb v "")); [|discriminate].
        intros H. exfalso. simpl in Hfs. apply bind_ok in Hfs. destruct Hfs as (w & Hw & _).
        rewrite Hw in H. discriminate.
      + discriminate.
      + intros _. eauto.
    - intros (x & y & r & E). rewrite E. reflexivity.
  Qed.

  Lemma get_field_missing fs :
    fields p vn true true = Ok fs ->
    (get_field p n vn = Err AccessDenied <->
     (forall g, In g fs -> ~ addressed_as g (lower n)) /\
     ~ (lower n = "count" /\ exists v, vn = Some v /\ v <> "")).
  Proof.
    intros Hfs. rewrite get_field_plain_unfold, Hfs. simpl.
    set (b := fun f => fst (equal f (lower n))).
    assert (HM : filter b fs = [] <-> forall g, In g fs -> ~ addressed_as g (lower n)).
    { rewrite filter_nil. split; intros H g Hg.
      - exact (proj1 (match_bool_false fs g Hfs Hg) (H g Hg)).
      - exact (proj2 (match_bool_false fs g Hfs Hg) (H g Hg)). }
    rewrite <- HM. destruct (filter b fs) as [|x [|y r]] eqn:E; simpl.
    - destruct vn as [v|].
      + destruct (String.eqb (lower n) "count" && negb (String.eqb v "")) eqn:C.
        * apply andb_true_iff in C. destruct C as [C1 C2]. apply String.eqb_eq in C1.
          apply negb_true_iff in C2. apply String.eqb_neq in C2. simpl in Hfs.
          apply bind_ok in Hfs. destruct Hfs as (w & Hw & _). rewrite Hw. simpl.
          split; [discriminate|]. intros [_ H]. exfalso; apply H. eauto.
        * split; [|reflexivity]. intros _. split; [reflexivity|]. intros (C1 & v' & Hv & Hne).
          injection Hv as ->. apply String.eqb_eq in C1. apply String.eqb_neq in Hne.
          rewrite C1, Hne in C. discriminate.
      + split; [|reflexivity]. intros _. split; [reflexivity|]. intros (_ & v' & Hv & _). discriminate.
    - split; [discriminate|]. intros [H _]. discriminate.
    - split; [discriminate|]. intros [H _]. discriminate.
  Qed.
End GetField.

Lemma get_field_qualified p v n :
  has_char dot v = false -> has_char dot n = false ->
  get_field p (v ++ String dot n) None = get_field p n (Some v).
Proof.
  intros Hv Hn. unfold get_field, parse_field_and_view_name.
  rewrite has_char_app. simpl has_char at 2. rewrite orb_true_r.
  rewrite (field_name_parts_qualified v n Hv Hn), Hn. reflexivity.
Qed.

Lemma get_field_case p n m vn :
  has_char dot n = false -> lower n = lower m -> get_field p n vn = get_field p m vn.
Proof.
  intros Hn E. assert (Hm : has_char dot m = false).
  { rewrite <- has_char_lower_dot, <- E, has_char_lower_dot. exact Hn. }
  rewrite (get_field_plain_unfold p n vn Hn), (get_field_plain_unfold p m vn Hm), E. reflexivity.
Qed.

(* ------------------------------------------------------------ order independence *)

Section Order.
  Variables (p : project) (vs' : list view_def).
  Hypothesis HP : Permutation (p_views p) vs'.
  Hypothesis HN : NoDup (map vd_name (p_views p)).
  Let q := same_but_views p vs'.

  Lemma perm_permitted r : permitted q r <-> permitted p r.
  Proof. reflexivity. Qed.

  Lemma perm_can r : can_access_object q r = can_access_object p r.
  Proof. reflexivity. Qed.

  Lemma perm_views sh : res_perm (views p sh) (views q sh).
  Proof.
    unfold views. change (p_views q) with vs'.
    change (fun v => b <- can_access_view q v ;; Ok (b && (sh || negb (vd_hidden v))))
      with (fun v => b <- can_access_view p v ;; Ok (b && (sh || negb (vd_hidden v)))).
    apply (filterM_perm _ QueryError); [|exact HP].
    intros x e H. apply bind_err in H. destruct H as [H|(b & _ & H)]; [|discriminate].
    apply can_access_object_err in H. tauto.
  Qed.

  Lemma perm_get_view n : get_view p n = get_view q n.
  Proof.
    unfold get_view. pose proof (perm_views true) as H.
    destruct (views p true) as [a|e] eqn:E1, (views q true) as [b|e'] eqn:E2; simpl in H; try contradiction.
    - simpl.
      assert (Hd : forall v w, In v a -> In w a -> vd_name v = vd_name w -> v = w).
      { apply views_spec in E1. destruct E1 as [_ E1]. intros v w Hv Hw. apply E1 in Hv. apply E1 in Hw.
        destruct Hv as [Hv _]. destruct Hw as [Hw _]. clear -HN Hv Hw.
        revert HN Hv Hw. generalize (p_views p) as l. intros l. induction l as [|x l IH]; simpl; [tauto|].
        intros HN. inversion HN as [|y ys H1 H2]; subst. intros [->|Hv] [->|Hw] E; [reflexivity| | |auto].
        - exfalso; apply H1. rewrite E. apply in_map; exact Hw.
        - exfalso; apply H1. rewrite <- E. apply in_map; exact Hv. }
      destruct (find (fun v => String.eqb (vd_name v) n) a) as [v|] eqn:F1,
               (find (fun v => String.eqb (vd_name v) n) b) as [w|] eqn:F2; [| | |reflexivity].
      + apply find_some in F1. apply find_some in F2. destruct F1 as [F1 N1], F2 as [F2 N2].
        apply String.eqb_eq in N1. apply String.eqb_eq in N2.
        rewrite (Hd v w); [reflexivity|exact F1| |congruence].
        eapply Permutation_in; [apply Permutation_sym; exact H|exact F2].
      + exfalso. apply find_some in F1. destruct F1 as [F1 N1].
        assert (Hin : In v b) by (eapply Permutation_in; eassumption).
        rewrite (proj1 (find_None _ _) F2 v Hin) in N1. discriminate.
      + exfalso. apply find_some in F2. destruct F2 as [F2 N2].
        assert (Hin : In w a) by (eapply Permutation_in; [apply Permutation_sym|]; eassumption).
        rewrite (proj1 (find_None _ _) F1 w Hin) in N2. discriminate.
    - subst e'. reflexivity.
  Qed.

  Lemma perm_fields vn sh e : res_perm (fields p vn sh e) (fields q vn sh e).
  Proof.
    destruct vn as [n|]; simpl.
    - rewrite <- perm_get_view. destruct (get_view p n) as [v|x]; simpl; [|reflexivity].
      change (view_fields q v sh e) with (view_fields p v sh e).
      destruct (view_fields p v sh e); simpl; reflexivity.
    - pose proof (perm_views true) as H.
      destruct (views p true) as [a|x] eqn:E1, (views q true) as [b|x'] eqn:E2; simpl in H; try contradiction.
      + simpl. change (fun v => view_fields q v sh e) with (fun v => view_fields p v sh e).
        apply (concatM_perm _ QueryError); [|exact H].
        intros v y Hy. apply view_fields_err in Hy. tauto.
      + exact H.
  Qed.

  Lemma handler_perm m m' n vn :
    Permutation m m' -> matching_field_handler p m n vn = matching_field_handler q m' n vn.
  Proof.
    intros H. destruct m as [|a [|b r]].
    - apply Permutation_nil in H. subst m'. simpl.
      destruct vn as [v|]; [|reflexivity]. rewrite <- perm_get_view. reflexivity.
    - apply Permutation_length_1_inv in H. subst m'. reflexivity.
    - assert (L := Permutation_length H). destruct m' as [|a' [|b' r']]; simpl in L; try discriminate.
      reflexivity.
  Qed.

  Lemma get_field_order fn vn : get_field p fn vn = get_field q fn vn.
  Proof.
    unfold get_field. destruct (parse_field_and_view_name fn vn) as [[n v]|e]; simpl; [|reflexivity].
    pose proof (perm_fields v true true) as H.
    destruct (fields p v true true) as [a|x], (fields q v true true) as [b|x']; simpl in H; try contradiction; simpl.
    - apply handler_perm, filter_perm, H.
    - subst; reflexivity.
  Qed.
End Order.
