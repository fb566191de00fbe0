From Verif Require Import PyBase PyStr Core_Model ProjectState_Model ProjectState_Spec.
Local Open Scope string_scope.
Local Open Scope list_scope.

Lemma opt_eqb_eq a b : opt_eqb a b = true <-> a = b.
Proof.
  destruct a, b; simpl; split; intros H; try discriminate; try reflexivity.
  - apply String.eqb_eq in H. congruence.
  - injection H as ->. apply String.eqb_refl.
Qed.

Lemma fargs_eqb_eq a b : fargs_eqb a b = true <-> a = b.
Proof.
  destruct a as [[v s] e], b as [[v' s'] e']. simpl. rewrite !andb_true_iff, opt_eqb_eq, !Bool.eqb_true_iff.
  split; [intros [[-> ->] ->]; reflexivity|intros H; injection H as -> -> ->; auto].
Qed.

Lemma largs_eqb_eq a b : largs_eqb a b = true <-> a = b.
Proof.
  destruct a as [n v], b as [n' v']. unfold largs_eqb. simpl. rewrite andb_true_iff, opt_eqb_eq, String.eqb_eq.
  split; [intros [-> ->]; reflexivity|intros H; injection H as -> ->; auto].
Qed.

Lemma cache_get_In {K V} (eqb : K -> K -> bool) (Heq : forall a b, eqb a b = true <-> a = b)
  h k (c : list ((Z * K) * V)) v : cache_get eqb h k c = Some v -> In ((h, k), v) c.
Proof.
  induction c as [|[[h' k'] v'] r IH]; simpl; [discriminate|].
  destruct (Z.eqb h h' && eqb k k') eqn:E.
  - apply andb_true_iff in E. destruct E as [E1 E2]. apply Z.eqb_eq in E1. apply Heq in E2. subst.
    intros H; injection H as ->. left; reflexivity.
  - intros H; right; apply IH; exact H.
Qed.

Section P.
  Variable G : Type.
  Variable dumps : user_attrs -> string.
  Variable hash : string -> Z.
  Variable build : project -> res G.
  Variable us : list (option user_attrs).
  Hypothesis Hinj : forall u1 u2, In u1 us -> In u2 us -> ukey dumps hash u1 = ukey dumps hash u2 -> u1 = u2.

  Notation pstate := (pstate G).
  Notation key := (ukey dumps hash).

  Definition at_user (s : pstate) (u : option user_attrs) : project :=
    Project (flat_map m_grants (ps_models G s)) (ps_views G s) (ps_dash G s) u.

  Definition valid (s : pstate) : Prop :=
    (forall h a r, In ((h, a), r) (ps_fields G s) -> forall u, In u us -> key u = h ->
       fields (at_user s u) (fst (fst a)) (snd (fst a)) (snd a) = Ok r) /\
    (forall h a r, In ((h, a), r) (ps_get G s) -> forall u, In u us -> key u = h ->
       get_field (at_user s u) (fst a) (snd a) = Ok r) /\
    (forall h a r, In ((h, a), r) (ps_name G s) -> forall u, In u us -> key u = h ->
       get_field_by_name (at_user s u) (fst a) (snd a) = Ok r) /\
    In (ps_user G s) us.

  Definition same_content (s t : pstate) : Prop :=
    ps_models G s = ps_models G t /\ ps_views G s = ps_views G t /\ ps_dash G s = ps_dash G t /\
    ps_user G s = ps_user G t.

  Lemma same_content_proj s t : same_content s t -> proj_of G s = proj_of G t.
  Proof. intros (H1 & H2 & H3 & H4). unfold proj_of. congruence. Qed.

  Lemma c_fields_ok a s :
    valid s ->
    let '(s', r) := c_fields G dumps hash a s in
    valid s' /\ same_content s s' /\ ps_graph G s' = ps_graph G s /\
    r = fields (proj_of G s) (fst (fst a)) (snd (fst a)) (snd a).
  Proof.
    intros (V1 & V2 & V3 & V4). unfold c_fields.
    destruct (cache_get fargs_eqb (key (ps_user G s)) a (ps_fields G s)) as [r|] eqn:E.
    - apply (cache_get_In _ fargs_eqb_eq) in E. split; [repeat split; assumption|].
      split; [repeat split|]. split; [reflexivity|]. symmetry. exact (V1 _ _ _ E _ V4 eq_refl).
    - destruct (fields (proj_of G s) _ _ _) as [r|e] eqn:F.
      + split; [|split; [repeat split|split; reflexivity]].
        split; [|split; [exact V2|split; [exact V3|exact V4]]].
        simpl. intros h a' r' [H|H] u Hu Hk.
        * injection H as <- <- <-. apply Hinj in Hk; [|exact Hu|exact V4]. subst u. exact F.
        * exact (V1 _ _ _ H u Hu Hk).
      + split; [repeat split; assumption|]. split; [repeat split|]. split; reflexivity.
  Qed.

  Lemma c_get_field_ok a s :
    valid s ->
    let '(s', r) := c_get_field G dumps hash a s in
    valid s' /\ same_content s s' /\ ps_graph G s' = ps_graph G s /\ r = get_field (proj_of G s) (fst a) (snd a).
  Proof.
    intros V. unfold c_get_field.
    destruct (cache_get largs_eqb (key (ps_user G s)) a (ps_get G s)) as [r|] eqn:E.
    - apply (cache_get_In _ largs_eqb_eq) in E. split; [exact V|].
      split; [repeat split|]. split; [reflexivity|]. symmetry. destruct V as (_ & V2 & _ & V4).
      exact (V2 _ _ _ E _ V4 eq_refl).
    - unfold get_field.
      destruct (parse_field_and_view_name (fst a) (snd a)) as [nv|e] eqn:Pn; simpl.
      2:{ split; [exact V|]. split; [repeat split|]. split; reflexivity. }
      pose proof (c_fields_ok (snd nv, true, true) s V) as HF.
      destruct (c_fields G dumps hash (snd nv, true, true) s) as [s1 r1].
      destruct HF as (V' & SC & HG & ->). simpl.
      destruct (fields (proj_of G s) (snd nv) true true) as [fs|e] eqn:F; simpl.
      2:{ split; [exact V'|]. split; [exact SC|]. split; [exact HG|reflexivity]. }
      rewrite <- (same_content_proj _ _ SC).
      destruct (matching_field_handler _ _ _ _) as [f|e] eqn:M.
      2:{ split; [exact V'|]. split; [exact SC|]. split; [exact HG|reflexivity]. }
      split; [|split; [exact SC|split; [exact HG|reflexivity]]].
      destruct V' as (V1 & V2 & V3 & V4).
      split; [exact V1|split; [|split; [exact V3|exact V4]]].
      simpl. intros h a' r' [H|H] u Hu Hk.
      + injection H as <- <- <-. destruct SC as (C1 & C2 & C3 & C4).
        apply Hinj in Hk; [|exact Hu|exact (proj2 (proj2 (proj2 V)))]. subst u.
        replace (at_user _ _) with (proj_of G s) by (unfold proj_of, at_user; simpl; congruence).
        unfold get_field. rewrite Pn. simpl. rewrite F. simpl. exact M.
      + exact (V2 _ _ _ H u Hu Hk).
  Qed.

  Lemma c_get_field_by_name_ok a s :
    valid s ->
    let '(s', r) := c_get_field_by_name G dumps hash a s in
    valid s' /\ same_content s s' /\ ps_graph G s' = ps_graph G s /\ r = get_field_by_name (proj_of G s) (fst a) (snd a).
  Proof.
    intros V. unfold c_get_field_by_name.
    destruct (cache_get largs_eqb (key (ps_user G s)) a (ps_name G s)) as [r|] eqn:E.
    - apply (cache_get_In _ largs_eqb_eq) in E. split; [exact V|].
      split; [repeat split|]. split; [reflexivity|]. symmetry. destruct V as (_ & _ & V2 & V4).
      exact (V2 _ _ _ E _ V4 eq_refl).
    - unfold get_field_by_name.
      destruct (parse_field_and_view_name (fst a) (snd a)) as [nv|e] eqn:Pn; simpl.
      2:{ split; [exact V|]. split; [repeat split|]. split; reflexivity. }
      pose proof (c_fields_ok (snd nv, true, false) s V) as HF.
      destruct (c_fields G dumps hash (snd nv, true, false) s) as [s1 r1].
      destruct HF as (V' & SC & HG & ->). simpl.
      destruct (fields (proj_of G s) (snd nv) true false) as [fs|e] eqn:F; simpl.
      2:{ split; [exact V'|]. split; [exact SC|]. split; [exact HG|reflexivity]. }
      rewrite <- (same_content_proj _ _ SC).
      destruct (matching_field_handler _ _ _ _) as [f|e] eqn:M.
      2:{ split; [exact V'|]. split; [exact SC|]. split; [exact HG|reflexivity]. }
      split; [|split; [exact SC|split; [exact HG|reflexivity]]].
      destruct V' as (V1 & V2 & V3 & V4).
      split; [exact V1|split; [exact V2|split; [|exact V4]]].
      simpl. intros h a' r' [H|H] u Hu Hk.
      + injection H as <- <- <-. destruct SC as (C1 & C2 & C3 & C4).
        apply Hinj in Hk; [|exact Hu|exact (proj2 (proj2 (proj2 V)))]. subst u.
        replace (at_user _ _) with (proj_of G s) by (unfold proj_of, at_user; simpl; congruence).
        unfold get_field_by_name. rewrite Pn. simpl. rewrite F. simpl. exact M.
      + exact (V3 _ _ _ H u Hu Hk).
  Qed.

  Definition sync (c : plain) (s : pstate) : Prop :=
    pl_models c = ps_models G s /\ pl_views c = ps_views G s /\ pl_dash c = ps_dash G s /\ pl_user c = ps_user G s.

  Lemma sync_proj c s : sync c s -> plain_project c = proj_of G s.
  Proof. intros (H1 & H2 & H3 & H4). unfold plain_project, proj_of. congruence. Qed.

  Lemma sync_same c s t : sync c s -> same_content s t -> sync c t.
  Proof. intros (H1 & H2 & H3 & H4) (K1 & K2 & K3 & K4). unfold sync. repeat split; congruence. Qed.

  Definition graph_ok (m : bool) (s : pstate) : Prop :=
    (forall g, ps_graph G s = Some g -> build (proj_of G s) = Ok g) /\ (m = false -> ps_graph G s = None).

  Lemma valid_refresh s : In (ps_user G s) us -> valid (refresh G s).
  Proof. intros H. unfold valid, refresh. simpl. repeat split; try (intros ? ? ? []). exact H. Qed.

  Lemma trace_refines ops : forall c s m,
    (forall u, In u (users ops) -> In u us) ->
    Forall refreshing ops -> graph_not_stale m ops ->
    valid s -> sync c s -> graph_ok m s ->
    cached_trace G build dumps hash s ops = plain_trace G build c ops.
  Proof.
    induction ops as [|o ops IH]; intros c s m Hus HR HG V S GO; [reflexivity|].
    inversion HR as [|? ? HR1 HR2]; subst.
    assert (Hus' : forall u, In u (users ops) -> In u us).
    { intros u Hu. apply Hus. unfold users in *. simpl in *. destruct Hu as [Hu|Hu]; [left; exact Hu|].
      right. apply in_or_app. right; exact Hu. }
    destruct o as [u|fd vn rc|n vn rc| |a|a|a|]; simpl.
    - f_equal. simpl in HG. destruct HG as [-> HG]. destruct GO as [_ GN]. specialize (GN eq_refl).
      apply (IH _ _ false Hus' HR2 HG).
      + destruct V as (V1 & V2 & V3 & V4). repeat split; try assumption.
        simpl. apply Hus. unfold users. simpl. right; left; reflexivity.
      + destruct S as (S1 & S2 & S3 & S4). repeat split; assumption.
      + split; [simpl; rewrite GN; discriminate|intros _; exact GN].
    - simpl in HR1. subst rc. unfold edit_view, add_field. destruct S as (S1 & S2 & S3 & S4). rewrite S2.
      destruct (update_view vn (add_to_view fd) (ps_views G s)) as [vs|].
      + f_equal. apply (IH _ _ m Hus' HR2 HG).
        * apply valid_refresh. simpl. exact (proj2 (proj2 (proj2 V))).
        * repeat split; assumption.
        * split; [simpl; discriminate|reflexivity].
      + f_equal. apply (IH _ _ m Hus' HR2 HG); [exact V|repeat split; assumption|exact GO].
    - simpl in HR1. subst rc. unfold edit_view, remove_field. destruct S as (S1 & S2 & S3 & S4). rewrite S2.
      destruct (update_view vn (remove_from_view n) (ps_views G s)) as [vs|].
      + f_equal. apply (IH _ _ m Hus' HR2 HG).
        * apply valid_refresh. simpl. exact (proj2 (proj2 (proj2 V))).
        * repeat split; assumption.
        * split; [simpl; discriminate|reflexivity].
      + f_equal. apply (IH _ _ m Hus' HR2 HG); [exact V|repeat split; assumption|exact GO].
    - f_equal. apply (IH _ _ false Hus' HR2 HG).
      + apply valid_refresh. exact (proj2 (proj2 (proj2 V))).
      + exact S.
      + split; [simpl; discriminate|reflexivity].
    - pose proof (c_fields_ok a s V) as H. destruct (c_fields G dumps hash a s) as [s' r].
      destruct H as (V' & SC & HGr & ->). rewrite (sync_proj _ _ S). f_equal.
      apply (IH _ _ m Hus' HR2 HG V' (sync_same _ _ _ S SC)).
      destruct GO as [G1 G2]. split; [rewrite HGr, <- (same_content_proj _ _ SC); exact G1|rewrite HGr; exact G2].
    - pose proof (c_get_field_ok a s V) as H. destruct (c_get_field G dumps hash a s) as [s' r].
      destruct H as (V' & SC & HGr & ->). rewrite (sync_proj _ _ S). f_equal.
      apply (IH _ _ m Hus' HR2 HG V' (sync_same _ _ _ S SC)).
      destruct GO as [G1 G2]. split; [rewrite HGr, <- (same_content_proj _ _ SC); exact G1|rewrite HGr; exact G2].
    - pose proof (c_get_field_by_name_ok a s V) as H. destruct (c_get_field_by_name G dumps hash a s) as [s' r].
      destruct H as (V' & SC & HGr & ->). rewrite (sync_proj _ _ S). f_equal.
      apply (IH _ _ m Hus' HR2 HG V' (sync_same _ _ _ S SC)).
      destruct GO as [G1 G2]. split; [rewrite HGr, <- (same_content_proj _ _ SC); exact G1|rewrite HGr; exact G2].
    - simpl in HG. unfold c_join_graph. rewrite (sync_proj _ _ S). destruct GO as [G1 G2].
      destruct (ps_graph G s) as [g|] eqn:E.
      + rewrite (G1 g eq_refl). f_equal. apply (IH _ _ true Hus' HR2 HG V S).
        split; [rewrite E; exact G1|discriminate].
      + destruct (build (proj_of G s)) as [g|e] eqn:B.
        * f_equal. apply (IH _ _ true Hus' HR2 HG).
          -- exact V.
          -- exact S.
          -- split; [|discriminate]. simpl. intros g' Hg'. injection Hg' as <-. exact B.
        * f_equal. apply (IH _ _ true Hus' HR2 HG V S). split; [rewrite E; discriminate|discriminate].
  Qed.
End P.

Lemma cached_trace_fresh G dumps hash build ms vs ds ops :
  (forall u1 u2, In u1 (users ops) -> In u2 (users ops) -> ukey dumps hash u1 = ukey dumps hash u2 -> u1 = u2) ->
  Forall refreshing ops -> graph_not_stale false ops ->
  cached_trace G build dumps hash (fresh G ms vs ds) ops = plain_trace G build (Plain ms vs ds None) ops.
Proof.
  intros Hinj HR HG. apply (trace_refines G dumps hash build (users ops) Hinj ops _ _ false); auto.
  - unfold valid, fresh. simpl. repeat split; try (intros ? ? ? []). left; reflexivity.
  - repeat split.
  - split; [simpl; discriminate|reflexivity].
Qed.

(* ------------------------------------------------------------ temporary fields *)

Lemma update_view_some n f vs vs' :
  update_view n f vs = Some vs' <->
  exists pre v post, vs = pre ++ v :: post /\ vs' = pre ++ f v :: post /\ vd_name v = n /\
    forall w, In w pre -> vd_name w <> n.
Proof.
  revert vs'; induction vs as [|v r IH]; intros vs'; simpl.
  - split; [discriminate|]. intros (pre & v & post & H & _). destruct pre; discriminate.
  - destruct (String.eqb (vd_name v) n) eqn:E.
    + apply String.eqb_eq in E. split.
      * intros H; injection H as <-. exists [], v, r. repeat split; auto.
      * intros (pre & w & post & H & -> & Hn & Hp). destruct pre as [|x pre].
        -- injection H as -> ->. reflexivity.
        -- injection H as -> ->. exfalso. apply (Hp x); [left; reflexivity|exact E].
    + apply String.eqb_neq in E. split.
      * destruct (update_view n f r) as [r'|] eqn:U; [|discriminate]. intros H; injection H as <-.
        destruct (proj1 (IH r') eq_refl) as (pre & w & post & -> & -> & Hn & Hp).
        exists (v :: pre), w, post. split; [reflexivity|]. split; [reflexivity|]. split; [exact Hn|].
        intros y [<-|Hy]; auto.
      * intros (pre & w & post & H & -> & Hn & Hp). destruct pre as [|x pre].
        -- injection H as -> ->. contradiction.
        -- injection H as -> ->. rewrite (proj2 (IH (pre ++ f w :: post))); [reflexivity|].
           exists pre, w, post. split; [reflexivity|]. split; [reflexivity|]. split; [exact Hn|].
           intros y Hy; apply Hp; right; exact Hy.
Qed.

Lemma update_view_none n f vs : update_view n f vs = None <-> ~ In n (map vd_name vs).
Proof.
  induction vs as [|v r IH]; simpl; [tauto|].
  destruct (String.eqb (vd_name v) n) eqn:E.
  - apply String.eqb_eq in E. split; [discriminate|]. intros H; exfalso; apply H; left; exact E.
  - apply String.eqb_neq in E. destruct (update_view n f r) as [r'|] eqn:U.
    + split; [discriminate|]. intros H. exfalso.
      assert (K : ~ In n (map vd_name r)) by tauto. apply IH in K. discriminate.
    + split; [|reflexivity]. intros _. pose proof (proj1 IH eq_refl). tauto.
Qed.

Lemma filter_id_iff {A} (f : A -> bool) l : filter f l = l <-> forall x, In x l -> f x = true.
Proof.
  split; [|apply filter_all]. intros H x Hx. rewrite <- H in Hx. apply filter_In in Hx. tauto.
Qed.

Lemma with_fields_id v : with_fields v (vd_fields v) = v.
Proof. destruct v; reflexivity. Qed.

Lemma remove_add_view fd v :
  remove_from_view (fd_name fd) (add_to_view fd v) =
  with_fields v (filter (fun g => negb (String.eqb (fd_name g) (fd_name fd))) (vd_fields v)).
Proof.
  unfold remove_from_view, add_to_view.
  destruct (existsb _ (vd_fields v)); [reflexivity|].
  simpl. unfold with_fields. simpl. f_equal. rewrite filter_app. simpl.
  rewrite String.eqb_refl. simpl. apply app_nil_r.
Qed.

Section T.
  Variable G : Type.

  Lemma with_temp_field_ok {A} fd vn (body : project -> res A) s s' a :
    with_temp_field G fd vn body s = (s', Ok a) ->
    exists pre v post,
      ps_views G s = pre ++ v :: post /\ vd_name v = vn /\ (forall w, In w pre -> vd_name w <> vn) /\
      s' = with_views G (pre ++ with_fields v (filter (fun g => negb (String.eqb (fd_name g) (fd_name fd))) (vd_fields v)) :: post) s /\
      body (proj_of G (with_views G (pre ++ add_to_view fd v :: post) s)) = Ok a.
  Proof.
    unfold with_temp_field, add_field.
    destruct (update_view vn (add_to_view fd) (ps_views G s)) as [vs|] eqn:U; [|discriminate].
    apply update_view_some in U. destruct U as (pre & v & post & Hv & -> & Hn & Hp).
    destruct (body _) as [b|e] eqn:B; [|discriminate].
    unfold remove_field. simpl.
    assert (Hn' : vd_name (add_to_view fd v) = vn).
    { unfold add_to_view. destruct (existsb _ _); exact Hn. }
    rewrite (proj2 (update_view_some vn (remove_from_view (fd_name fd)) (pre ++ add_to_view fd v :: post)
               (pre ++ remove_from_view (fd_name fd) (add_to_view fd v) :: post))).
    2:{ exists pre, (add_to_view fd v), post. repeat split; auto. }
    intros H. injection H as <- <-. exists pre, v, post. rewrite remove_add_view.
    repeat split; auto.
  Qed.

  Lemma with_temp_field_total {A} fd vn (body : project -> res A) s :
    In vn (map vd_name (ps_views G s)) -> (forall p, exists a, body p = Ok a) ->
    exists s' a, with_temp_field G fd vn body s = (s', Ok a).
  Proof.
    intros Hin Hb. unfold with_temp_field, add_field.
    destruct (update_view vn (add_to_view fd) (ps_views G s)) as [vs|] eqn:U.
    - apply update_view_some in U. destruct U as (pre & v & post & Hv & -> & Hn & Hp).
      destruct (Hb (proj_of G (with_views G (pre ++ add_to_view fd v :: post) s))) as [a Ha]. simpl. rewrite Ha.
      unfold remove_field. simpl.
      assert (Hn' : vd_name (add_to_view fd v) = vn).
      { unfold add_to_view. destruct (existsb _ _); exact Hn. }
      rewrite (proj2 (update_view_some vn (remove_from_view (fd_name fd)) (pre ++ add_to_view fd v :: post)
               (pre ++ remove_from_view (fd_name fd) (add_to_view fd v) :: post))).
      2:{ exists pre, (add_to_view fd v), post. repeat split; auto. }
      eexists _, _. reflexivity.
    - apply update_view_none in U. contradiction.
  Qed.

  Lemma with_views_id s : with_views G (ps_views G s) s = s.
  Proof. destruct s; reflexivity. Qed.

  Lemma temp_field_restores_iff {A} fd vn (body : project -> res A) s s' a :
    with_temp_field G fd vn body s = (s', Ok a) ->
    (s' = s <-> forall pre v post, ps_views G s = pre ++ v :: post -> vd_name v = vn ->
                 (forall w, In w pre -> vd_name w <> vn) ->
                 forall g, In g (vd_fields v) -> fd_name g <> fd_name fd).
  Proof.
    intros H. apply with_temp_field_ok in H. destruct H as (pre & v & post & Hv & Hn & Hp & -> & _).
    split.
    - intros E. apply (f_equal (ps_views G)) in E. simpl in E. rewrite Hv in E.
      apply app_inv_head in E. injection E as E.
      assert (F : filter (fun g => negb (String.eqb (fd_name g) (fd_name fd))) (vd_fields v) = vd_fields v)
        by (destruct v; unfold with_fields in E; simpl in *; congruence).
      intros pre' v' post' Hv' Hn' Hp' g Hg.
      assert (v' = v).
      { assert (Hs : update_view vn (fun x => x) (ps_views G s) = Some (pre ++ v :: post)).
        { apply update_view_some. exists pre, v, post. auto. }
        clear F E. rewrite Hv in Hv'. clear Hs Hv. revert pre' Hv' Hp'.
        induction pre as [|x pre IH]; intros [|y pre'] Hv' Hp'; simpl in Hv'.
        - injection Hv' as E1 _. congruence.
        - injection Hv' as E1 _. exfalso. apply (Hp' y); [left; reflexivity|congruence].
        - injection Hv' as E1 _. exfalso. apply (Hp x); [left; reflexivity|congruence].
        - injection Hv' as E1 E2. apply (IH (fun w Hw => Hp w (or_intror Hw)) pre' E2).
          intros w Hw; apply Hp'; right; exact Hw. }
      subst v'. rewrite filter_id_iff in F. apply F in Hg. apply negb_true_iff in Hg.
      apply String.eqb_neq in Hg. exact Hg.
    - intros Hall. specialize (Hall pre v post Hv Hn Hp).
      replace (filter (fun g => negb (String.eqb (fd_name g) (fd_name fd))) (vd_fields v)) with (vd_fields v).
      + rewrite with_fields_id, <- Hv. apply with_views_id.
      + symmetry. apply filter_id_iff. intros g Hg. apply negb_true_iff, String.eqb_neq, Hall, Hg.
  Qed.

  Lemma add_existing_noop fd vn s pre v post :
    ps_views G s = pre ++ v :: post -> vd_name v = vn -> (forall w, In w pre -> vd_name w <> vn) ->
    (exists g, In g (vd_fields v) /\ lower (fd_name g) = lower (fd_name fd)) ->
    add_field G fd vn false s = (s, Ok tt).
  Proof.
    intros Hv Hn Hp (g & Hg & Hl). unfold add_field.
    rewrite (proj2 (update_view_some vn (add_to_view fd) (ps_views G s) (ps_views G s))).
    - rewrite with_views_id. reflexivity.
    - exists pre, v, post. repeat split; auto. unfold add_to_view.
      replace (existsb _ (vd_fields v)) with true; [exact Hv|].
      symmetry. apply existsb_exists. exists g. split; [exact Hg|]. apply String.eqb_eq; exact Hl.
  Qed.

  (* -------------------------------------------------------- replace_objects *)

  Lemma replace_objects_spec {A} l (body : pstate G -> pstate G * res A) s s' r :
    replace_objects G l body s = (s', r) ->
    ps_models G s' = ps_models G s /\ ps_views G s' = ps_views G s /\ ps_dash G s' = ps_dash G s /\
    (existsb nameless l = false ->
       ps_fields G s' = [] /\ ps_get G s' = [] /\ ps_name G s' = [] /\ ps_graph G s' = None /\
       r = snd (body (replaced G l s))) /\
    (existsb nameless l = true -> s' = s /\ r = Err KeyError).
  Proof.
    unfold replace_objects. destruct (existsb nameless l).
    - intros H; injection H as <- <-. repeat split; try discriminate; auto.
    - destruct (body (replaced G l s)) as [s1 r1] eqn:B. intros H; injection H as <- <-.
      repeat split; try discriminate; auto.
  Qed.
End T.
