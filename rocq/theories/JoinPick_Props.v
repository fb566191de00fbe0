(** C14, continued: which joins are chosen for three or more views, and when the choice fails. *)
From Coq Require Import Lia.
From Verif Require Import PyBase PyStr PySort JoinGraph_Model JoinGraph_Spec JoinGraph_Proofs JoinGraph_Props
  JoinOrder_Model JoinOrder_Spec JoinOrder_Proofs JoinOrder_Nx JoinOrder_Props.
Local Open Scope string_scope.
Local Open Scope list_scope.
Local Open Scope nat_scope.

(** * Specification *)
(** [t] can be reached from [s] along joins. *)
Definition reaches (g : graph) (s t : string) : Prop := exists rest w, walk g s rest t w.
(** A join at which a plan may begin: it is a join of the graph and touches a required view. *)
Definition may_start (g : graph) (req : list string) (x : vpair) : Prop :=
  (exists e, get_edge g (fst x) (snd x) = Some e) /\ (In (fst x) req \/ In (snd x) req).
(** A bridge: a view whose primary key is made of keys of which one belongs to a required view. *)
Definition bridge (comp : list (list string * string)) (req : list string) (v : string) : Prop :=
  exists ks r, In (ks, v) comp /\ In r ks /\ In r req.
Definition at_bridge comp req (x : vpair) : Prop := bridge comp req (fst x) \/ bridge comp req (snd x).
Definition inside (req : list string) (x : vpair) : Prop := In (fst x) req /\ In (snd x) req.
Definition alphabetical (x y : vpair) : Prop :=
  String.compare (fst x) (fst y) = Lt \/ (fst x = fst y /\ String.compare (snd x) (snd y) = Lt).
(** [x] is tried before [y]: joins at a bridge first, then joins of two required views, then by name. *)
Definition precedes comp req (x y : vpair) : Prop :=
  (at_bridge comp req x /\ ~ at_bridge comp req y) \/
  ((at_bridge comp req x <-> at_bridge comp req y) /\
   ((inside req x /\ ~ inside req y) \/ ((inside req x <-> inside req y) /\ alphabetical x y))).

(** * The order of the candidates *)
Lemma bridge_views_In comp req v : In v (bridge_views comp req) <-> bridge comp req v.
Proof.
  unfold bridge_views, bridge. rewrite in_flat_map. split.
  - intros [[ks w] [I H]]. simpl in H. destruct (existsb (fun r => mem r ks) req) eqn:X; [|destruct H].
    destruct H as [<-|[]]. apply existsb_exists in X. destruct X as [r [R M]]. apply mem_In in M. exists ks, r; auto.
  - intros [ks [r [I [R Q]]]]. exists (ks, v). split; auto. simpl.
    replace (existsb (fun r0 => mem r0 ks) req) with true; [left; auto|].
    symmetry. apply existsb_exists. exists r. split; auto. apply mem_In; auto.
Qed.
Lemma at_bridge_spec comp req x :
  (mem (fst x) (bridge_views comp req) || mem (snd x) (bridge_views comp req)) = true <-> at_bridge comp req x.
Proof. rewrite orb_true_iff, !mem_In, !bridge_views_In. reflexivity. Qed.
Lemma pair_in_spec x l : pair_in x l = true <-> In x l.
Proof.
  unfold pair_in. rewrite existsb_exists. split.
  - intros [y [I E]]. unfold pair_eqb in E. apply andb_true_iff in E. destruct E as [A B].
    apply String.eqb_eq in A. apply String.eqb_eq in B. destruct x, y; simpl in *; subst; auto.
  - intros I. exists x. split; auto. unfold pair_eqb. rewrite !String.eqb_refl. auto.
Qed.

Lemma edge_leb_total bs sub x y : edge_leb bs sub x y = true \/ edge_leb bs sub y x = true.
Proof.
  unfold edge_leb. cbv zeta beta iota.
  set (b1 := if mem (fst x) bs || mem (snd x) bs then 0 else 1). set (b2 := if mem (fst y) bs || mem (snd y) bs then 0 else 1).
  set (s1 := if pair_in x sub then 0 else 1). set (s2 := if pair_in y sub then 0 else 1).
  destruct (Nat.ltb_spec b1 b2), (Nat.ltb_spec b2 b1); try lia; auto.
  destruct (Nat.ltb_spec s1 s2), (Nat.ltb_spec s2 s1); try lia; auto.
  rewrite (String.eqb_sym (fst y) (fst x)). destruct (String.eqb (fst x) (fst y)); apply String.leb_total.
Qed.
Lemma names_leb_trans (x y z : vpair) :
  (if String.eqb (fst x) (fst y) then String.leb (snd x) (snd y) else String.leb (fst x) (fst y)) = true ->
  (if String.eqb (fst y) (fst z) then String.leb (snd y) (snd z) else String.leb (fst y) (fst z)) = true ->
  (if String.eqb (fst x) (fst z) then String.leb (snd x) (snd z) else String.leb (fst x) (fst z)) = true.
Proof.
  destruct (String.eqb_spec (fst x) (fst y)) as [E|E]; destruct (String.eqb_spec (fst y) (fst z)) as [F|F]; intros A B.
  - rewrite E, F, String.eqb_refl. eapply str_leb_trans; eauto.
  - rewrite E. destruct (String.eqb_spec (fst y) (fst z)); congruence.
  - rewrite <- F. destruct (String.eqb_spec (fst x) (fst y)); congruence.
  - destruct (String.eqb_spec (fst x) (fst z)) as [G|G].
    + exfalso. rewrite G in A, E. apply F. apply String.leb_antisym; auto.
    + eapply str_leb_trans; eauto.
Qed.
Lemma edge_leb_trans bs sub x y z : edge_leb bs sub x y = true -> edge_leb bs sub y z = true -> edge_leb bs sub x z = true.
Proof.
  unfold edge_leb. cbv zeta beta iota.
  set (b1 := if mem (fst x) bs || mem (snd x) bs then 0 else 1). set (b2 := if mem (fst y) bs || mem (snd y) bs then 0 else 1).
  set (b3 := if mem (fst z) bs || mem (snd z) bs then 0 else 1).
  set (s1 := if pair_in x sub then 0 else 1). set (s2 := if pair_in y sub then 0 else 1). set (s3 := if pair_in z sub then 0 else 1).
  destruct (Nat.ltb_spec b1 b2), (Nat.ltb_spec b2 b1), (Nat.ltb_spec b2 b3), (Nat.ltb_spec b3 b2),
    (Nat.ltb_spec b1 b3), (Nat.ltb_spec b3 b1); try lia; try discriminate; auto.
  destruct (Nat.ltb_spec s1 s2), (Nat.ltb_spec s2 s1), (Nat.ltb_spec s2 s3), (Nat.ltb_spec s3 s2),
    (Nat.ltb_spec s1 s3), (Nat.ltb_spec s3 s1); try lia; try discriminate; auto.
  apply names_leb_trans.
Qed.

(** A candidate tried before another is not sorted after it. *)
Lemma precedes_not_leb g comp req x y : 
  (forall z, inside req z -> (exists e, get_edge g (fst z) (snd z) = Some e) -> In z (sub_edges g req)) ->
  (forall z, In z (sub_edges g req) -> inside req z) ->
  (exists e, get_edge g (fst x) (snd x) = Some e) -> (exists e, get_edge g (fst y) (snd y) = Some e) ->
  precedes comp req x y -> edge_leb (bridge_views comp req) (sub_edges g req) y x = false.
Proof.
  intros S1 S2 EX EY P. unfold edge_leb. cbv zeta beta iota.
  pose proof (at_bridge_spec comp req x) as BX. pose proof (at_bridge_spec comp req y) as BY.
  assert (IX : pair_in x (sub_edges g req) = true <-> inside req x) by (rewrite pair_in_spec; split; auto).
  assert (IY : pair_in y (sub_edges g req) = true <-> inside req y) by (rewrite pair_in_spec; split; auto).
  destruct (mem (fst x) (bridge_views comp req) || mem (snd x) (bridge_views comp req));
  destruct (mem (fst y) (bridge_views comp req) || mem (snd y) (bridge_views comp req));
  cbn [Nat.ltb Nat.leb]; auto;
  try (exfalso; destruct P as [[P1 P2]|[P1 _]]; [tauto|];
       assert (X : false = true) by tauto; discriminate).
  all: destruct P as [[P1 P2]|[_ P]]; [exfalso; tauto || (assert (X : false = true) by tauto; discriminate)|].
  all: destruct (pair_in x (sub_edges g req)); destruct (pair_in y (sub_edges g req)); cbn [Nat.ltb Nat.leb]; auto;
    try (exfalso; destruct P as [[P1 P2]|[P1 _]]; [tauto|];
       assert (X : false = true) by tauto; discriminate).
  all: destruct P as [[P1 P2]|[_ P]]; [exfalso; tauto || (assert (X : false = true) by tauto; discriminate)|].
  all: assert (L : forall a b, String.compare a b = Lt -> String.leb b a = false /\ String.eqb b a = false);
    [intros a b C; unfold String.leb; rewrite String.compare_antisym, C; split; [reflexivity|];
     destruct (String.eqb_spec b a) as [->|]; auto; rewrite str_compare_refl in C; discriminate|].
  all: destruct P as [P|[P Q]]; [destruct (L _ _ P) as [-> ->]; reflexivity|rewrite P, String.eqb_refl; apply L; auto].
Qed.

(** * Building a plan from a starting join *)
Lemma reaches_refl g s : reaches g s s.
Proof. exists [], 0. constructor. Qed.
Lemma reaches_trans g s m t : reaches g s m -> reaches g m t -> reaches g s t.
Proof. intros [p [w W]] [q [w' W']]. exists (p ++ q), (w + w'). eapply walk_app; eauto. Qed.
Lemma reaches_edge g s t e : get_edge g s t = Some e -> reaches g s t.
Proof. intros E. exists [t], (e_weight e + 0). econstructor; eauto. constructor. Qed.
Lemma reaches_dec g sp s t : shortest_path_contract g sp -> reaches g s t \/ ~ reaches g s t.
Proof.
  intros [A B]. destruct (sp s t) as [p|] eqn:P.
  - destruct (A _ _ _ P) as [rest [w [_ [W _]]]]. left. exists rest, w; auto.
  - right. intros [rest [w W]]. eapply B; eauto.
Qed.
Lemma ok_pairs_reach g base : forall ps pr, (forall x, In x pr -> reaches g base x) -> ok_pairs g base pr ps ->
  forall p, In p ps -> reaches g base (fst p) /\ reaches g base (snd p).
Proof.
  induction ps as [|[a b] r IH]; simpl; intros pr H K p I; [destruct I|].
  destruct K as [A [_ [[e E] K]]].
  assert (RB : reaches g base b) by (eapply reaches_trans; [apply H; eauto|eapply reaches_edge; eauto]).
  destruct I as [<-|I]; [simpl; auto|]. apply (IH (b :: pr)); auto. intros x [<-|X]; auto.
Qed.
Lemma add_pass_extends g sp anchors missing : forall pairs still,
  exists more, fst (add_pass g sp anchors missing pairs still) = pairs ++ more.
Proof.
  induction missing as [|v r IH]; simpl; intros; [exists []; rewrite app_nil_r; auto|].
  destruct (shortest_between g sp _) as [p|]; [|apply IH].
  destruct (IH (pairs ++ zip_path p) still) as [more M]. exists (zip_path p ++ more). rewrite M, app_assoc. auto.
Qed.
Lemma add_missing_extends g sp f : forall missing pairs n ps,
  add_missing g sp f missing pairs n = Ok ps -> exists more, ps = pairs ++ more.
Proof.
  induction f as [|f IH]; intros missing pairs n ps H; [discriminate|]. cbn [add_missing] in H.
  set (anchors := match pairs with [] => [] | p :: _ => fst p :: map snd pairs end) in H.
  destruct (add_pass_extends g sp anchors (sort_str missing) pairs []) as [more M].
  destruct (add_pass g sp anchors (sort_str missing) pairs []) as [pairs' still]. simpl in M. subst pairs'.
  destruct still as [|s ss]; [inversion H; eauto|].
  destruct (Nat.eqb _ n); [discriminate|]. apply IH in H. destruct H as [mo ->]. exists (more ++ mo). rewrite app_assoc; auto.
Qed.
Lemma greedy_build_head g sp x req ps : greedy_build_join g sp x req = Ok ps -> exists more, ps = x :: more.
Proof.
  destruct x as [a b]. unfold greedy_build_join. change (clean_view_pairs [(a, b)]) with [(a, b)]. cbv zeta.
  destruct (filter _ req); intros H; [inversion H; eauto|]. apply add_missing_extends in H. destruct H as [more ->].
  simpl. eauto.
Qed.
Lemma add_pass_all g sp a anchors missing : shortest_path_contract g sp -> In a anchors -> 
  (forall v, In v missing -> reaches g a v) -> forall pairs still,
  snd (add_pass g sp anchors missing pairs still) = still.
Proof.
  intros C IA. induction missing as [|v r IH]; intros H pairs still; auto. cbn [add_pass].
  destruct (shortest_between g sp (map (fun a0 => (a0, v)) anchors)) as [p|] eqn:S.
  - apply IH. intros; apply H; right; auto.
  - exfalso. destruct (H v (or_introl eq_refl)) as [rest [w W]].
    eapply (shortest_between_None g sp C _ a v); eauto. apply in_map_iff. exists a; auto.
Qed.

Section Pick.
  Variable g : graph.
  Variable sp : string -> string -> option (list string).
  Hypothesis ND : NoDup (map fst g).
  Hypothesis POS : positive g.
  Hypothesis SP : shortest_path_contract g sp.

  (** Building succeeds exactly when the first view reaches every required view. *)
  Lemma greedy_build_iff x req : fst x <> snd x -> (exists e, get_edge g (fst x) (snd x) = Some e) ->
    ((exists ps, greedy_build_join g sp x req = Ok ps) <-> forall v, In v req -> reaches g (fst x) v).
  Proof.
    intros NE ED. split.
    - intros [ps H] v I. destruct (greedy_build_head _ _ _ _ _ H) as [more E].
      destruct (greedy_build_ok g sp POS SP x req NE ED) as [[ps' [H' [[a [b [r [E' K]]]] C]]]|H']; [|congruence].
      assert (X : x :: more = (a, b) :: r) by congruence. inversion X; subst x more.
      assert (ps' = ps) by congruence. clear E'. subst ps'.
      destruct (C v I) as [p [P Q]].
      destruct (ok_pairs_reach g a ps [a]) with (p := p) as [R1 R2]; auto.
      { intros y [<-|[]]. apply reaches_refl. }
      simpl. destruct Q; subst v; auto.
    - intros H. destruct x as [a b]. simpl in *. unfold greedy_build_join.
      change (clean_view_pairs [(a, b)]) with [(a, b)]. cbv zeta.
      destruct (filter _ req) as [|m ms] eqn:F; [eauto|].
      set (missing := m :: ms) in *.
      cbn [add_missing].
      pose proof (add_pass_all g sp a (fst (a, b) :: map snd [(a, b)]) (sort_str missing) SP (or_introl eq_refl)) as A.
      assert (B : forall v, In v (sort_str missing) -> reaches g a v).
      { intros v I. apply (proj1 (sort_str_In _ _)) in I. rewrite <- F in I. apply filter_In in I. apply H. tauto. }
      specialize (A B [(a, b)] []).
      destruct (add_pass g sp (fst (a, b) :: map snd [(a, b)]) (sort_str missing) [(a, b)] []) as [p s]. simpl in A. subst s.
      eauto.
  Qed.
  Lemma greedy_build_no x req : fst x <> snd x -> (exists e, get_edge g (fst x) (snd x) = Some e) ->
    (greedy_build_join g sp x req = Err ValueError <-> exists v, In v req /\ ~ reaches g (fst x) v).
  Proof.
    intros NE ED. split.
    - intros H.
      assert (D : (forall v, In v req -> reaches g (fst x) v) \/ exists v, In v req /\ ~ reaches g (fst x) v).
      { clear H. induction req as [|v r IH]; [left; intros ? []|].
        destruct (reaches_dec g sp (fst x) v SP) as [R|R]; [|right; exists v; simpl; auto].
        destruct IH as [IH|[w [W1 W2]]]; [|right; exists w; simpl; auto]. left. intros w [<-|W]; auto. }
      destruct D as [D|D]; auto. apply (greedy_build_iff x req NE ED) in D. destruct D; congruence.
    - intros [v [I N]]. destruct (greedy_build_ok g sp POS SP x req NE ED) as [[ps [H _]]|H]; auto.
      exfalso. apply N. apply (proj1 (greedy_build_iff x req NE ED)); eauto.
  Qed.

  Lemma first_greedy_pick es req :
    (forall x, In x es -> fst x <> snd x /\ exists e, get_edge g (fst x) (snd x) = Some e) ->
    (forall ps, first_greedy g sp es req = Ok ps ->
       exists pre x post, es = pre ++ x :: post /\ greedy_build_join g sp x req = Ok ps /\
         forall y, In y pre -> greedy_build_join g sp y req = Err ValueError) /\
    (forall k, first_greedy g sp es req = Err k -> forall y, In y es -> greedy_build_join g sp y req = Err ValueError).
  Proof.
    induction es as [|x r IH]; intros H; simpl.
    - split; [discriminate|intros k _ y []].
    - destruct (H x (or_introl eq_refl)) as [A B].
      destruct IH as [I1 I2]; [intros y Y; apply H; right; auto|].
      destruct (greedy_build_ok g sp POS SP x req A B) as [[p [G _]]|G]; rewrite G.
      + split; [|discriminate]. intros ps E. inversion E; subst. exists [], x, r. split; auto. split; auto. intros y [].
      + split.
        * intros ps E. destruct (I1 _ E) as [pre [z [post [-> [C D]]]]]. exists (x :: pre), z, post. split; auto. split; auto.
          intros y [<-|Y]; auto.
        * intros k E y [<-|Y]; eauto.
  Qed.

  Lemma greedy_pick comp req : no_loops g ->
    (forall ps, greedy g comp sp req = Ok ps ->
       exists x more, ps = x :: more /\ may_start g req x /\ (forall v, In v req -> reaches g (fst x) v) /\
         forall y, may_start g req y -> precedes comp req y x -> exists v, In v req /\ ~ reaches g (fst y) v) /\
    (forall k, greedy g comp sp req = Err k -> forall y, may_start g req y -> exists v, In v req /\ ~ reaches g (fst y) v).
  Proof.
    intros NL. unfold greedy.
    set (es := filter (fun e => mem (fst e) req || mem (snd e) req) (g_edges g)).
    assert (ES : forall x, In x es <-> may_start g req x).
    { intros [u v]. unfold es, may_start. rewrite filter_In, orb_true_iff, !mem_In. split; intros [A B]; split; auto.
      - apply g_edges_In in A; auto.
      - destruct A as [e A]. eapply get_edge_In; eauto. }
    assert (EE : forall x, may_start g req x -> fst x <> snd x /\ exists e, get_edge g (fst x) (snd x) = Some e).
    { intros [u v] [[e E] _]. simpl in *. split; eauto. intros ->. rewrite NL in E. discriminate. }
    set (lb := edge_leb (bridge_views comp req) (sub_edges g req)).
    destruct (first_greedy_pick (isort lb es) req) as [F1 F2].
    { intros x X. apply isort_In, ES in X. apply EE; auto. }
    split.
    - intros ps H. destruct (F1 _ H) as [pre [x [post [E [G K]]]]].
      destruct (greedy_build_head _ _ _ _ _ G) as [more ->]. exists x, more. split; auto.
      assert (MX : may_start g req x). { apply ES. apply (isort_In lb). rewrite E. apply in_or_app; right; left; auto. }
      split; auto. destruct (EE x MX) as [A B]. split; [apply (greedy_build_iff x req A B); eauto|].
      intros y MY P. destruct (EE y MY) as [A' B']. apply (greedy_build_no y req A' B'). 
      assert (IY : In y (pre ++ x :: post)) by (rewrite <- E; apply isort_In, ES; auto).
      apply in_app_or in IY. destruct IY as [IY|IY]; auto.
      assert (LF : lb x y = false).
      { unfold lb. apply precedes_not_leb; auto.
        - intros [u v] [U V] Q. apply sub_edges_In; auto.
        - intros [u v] Q. apply sub_edges_In in Q; auto. split; tauto. }
      exfalso. assert (LT : lb x y = true); [|congruence].
      destruct IY as [<-|IY].
      + destruct (edge_leb_total (bridge_views comp req) (sub_edges g req) x x); auto.
      + pose proof (isort_sorted lb (edge_leb_total _ _) (edge_leb_trans _ _) es) as SO. rewrite E in SO.
        clear - SO IY. induction pre as [|z pre IH]; simpl in SO; inversion SO; subst; auto.
    - intros k H y MY. destruct (EE y MY) as [A B]. apply (greedy_build_no y req A B). eapply F2; eauto. apply isort_In, ES; auto.
  Qed.
End Pick.

Lemma ordered_incl g : forall pairs joined js, ordered_joins_aux g pairs joined = Ok js ->
  forall j, In j js -> In (jn_base j, jn_view j) pairs.
Proof.
  induction pairs as [|[u v] r IH]; simpl; intros joined js H j I; [inversion H; subst; destruct I|].
  apply bind_ok in H. destruct H as [k [K H]]. apply bind_ok in H. destruct H as [ks [A B]].
  unfold get_join in K. destruct (get_edge g u v); inversion K; subst k.
  inversion B; subst js. destruct (mem v joined); [right; eapply IH; eauto|].
  destruct I as [<-|I]; [left; auto|right; eapply IH; eauto].
Qed.
Lemma ordered_head g u v r js : ordered_joins g ((u, v) :: r) = Ok js ->
  exists j rest, js = j :: rest /\ (jn_base j, jn_view j) = (u, v).
Proof.
  unfold ordered_joins. cbn [ordered_joins_aux]. intros H.
  apply bind_ok in H. destruct H as [k [K H]]. apply bind_ok in H. destruct H as [ks [A B]].
  unfold get_join in K. destruct (get_edge g u v); inversion K; subst k. inversion B; subst. simpl. eauto.
Qed.

(** * C14 for three or more views *)
(** The joins chosen either all join required views to one another, or begin at the first join, in the
    order joins at a bridge / joins of two required views / alphabetical, from whose left view every
    required view can be reached. *)
Theorem C14_many vs g comp topo sp req js :
  build vs = Ok g -> no_self_reference vs ->
  topological_contract topo -> shortest_path_contract g sp ->
  NoDup req -> 3 <= List.length req ->
  joins g comp topo sp req = Ok js ->
  (forall j, In j js -> In (jn_base j) req /\ In (jn_view j) req) \/
  (exists j rest, js = j :: rest /\ may_start g req (jn_base j, jn_view j) /\
     (forall v, In v req -> reaches g (jn_base j) v) /\
     forall x, may_start g req x -> precedes comp req x (jn_base j, jn_view j) ->
       exists v, In v req /\ ~ reaches g (fst x) v).
Proof.
  intros B NS T S NR LR J. unfold joins in J. apply bind_ok in J. destruct J as [pairs [D O]].
  assert (F : fallback g comp sp req = Ok pairs -> exists j rest, js = j :: rest /\ may_start g req (jn_base j, jn_view j) /\
     (forall v, In v req -> reaches g (jn_base j) v) /\
     forall x, may_start g req x -> precedes comp req x (jn_base j, jn_view j) ->
       exists v, In v req /\ ~ reaches g (fst x) v).
  { intros F. assert (GR : greedy g comp sp req = Ok pairs).
    { destruct req as [|a [|b [|c r]]]; simpl in LR; try lia. exact F. }
    destruct (greedy_pick g sp (build_nodup _ _ B) (build_positive _ _ B) S comp req (build_no_loops _ _ B NS)) as [P _].
    destruct (P _ GR) as [[u v] [more [-> [M [R Q]]]]].
    destruct (ordered_head _ _ _ _ _ O) as [j [rest [-> E]]]. exists j, rest. split; auto. rewrite E.
    inversion E; subst. auto. }
  unfold determine_join_order in D.
  destruct req as [|a [|b r]]; simpl in LR; try lia. set (rq := a :: b :: r) in *.
  destruct (topo (sub_edges g rq)) as [raw|] eqn:TP; [|right; auto].
  change (1 <? List.length rq) with true in D. cbv iota zeta in D.
  apply bind_ok in D. destruct D as [[|] [V D]]; [right; auto|]. inversion D; subst pairs. left.
  intros j I. apply (ordered_incl _ _ _ _ O) in I. apply clean_incl in I.
  apply (Permutation_in _ (proj1 (proj1 T _ _ TP))) in I. apply sub_edges_In in I; [tauto|]. eapply build_nodup; eauto.
Qed.
Print Assumptions C14_many.

(** A head: a required view joined to another required view, to which no required view is joined. *)
Definition head_of (g : graph) (req : list string) (v : string) : Prop :=
  In v req /\ (exists t, In t req /\ has_edge g v t) /\ forall u, In u req -> ~ has_edge g u v.

Lemma respects_before l1 q l2 p : respects (l1 ++ q :: l2) -> In p l2 -> snd p <> fst q.
Proof. intros R I. apply (R l1 q l2 eq_refl). right; auto. Qed.
Lemma failed_clean a : forall todo prev added k,
  respects (prev ++ todo) -> (exists b r, prev = (a, b) :: r) -> In a added ->
  (forall x, In x (map snd prev) -> In x added) ->
  validate_aux (clean_aux prev todo) added = Err k ->
  exists c d, In (c, d) todo /\ c <> a /\ forall u, ~ In (u, c) (prev ++ todo).
Proof.
  induction todo as [|p r IH]; intros prev added k R HP IA INV V; [discriminate|].
  cbn [clean_aux] in V. cbv zeta in V.
  assert (HP' : exists b r0, prev ++ [p] = (a, b) :: r0) by (destruct HP as [b [r0 ->]]; exists b, (r0 ++ [p]); reflexivity).
  assert (AS : (prev ++ [p]) ++ r = prev ++ p :: r) by (rewrite <- app_assoc; reflexivity).
  assert (REC : forall added', incl added added' -> In (snd p) added' ->
    validate_aux (clean_aux (prev ++ [p]) r) added' = Err k ->
    exists c d, In (c, d) (p :: r) /\ c <> a /\ forall u, ~ In (u, c) (prev ++ p :: r)).
  { intros added' I1 I2 V'. destruct (IH (prev ++ [p]) added' k) as [c [d [X [Y Z]]]]; auto.
    - rewrite AS; auto.
    - intros x X. rewrite map_app in X. apply in_app_or in X. destruct X as [X|[<-|[]]]; auto.
    - exists c, d. split; [right; auto|]. split; auto. rewrite AS in Z. auto. }
  destruct (negb _ && negb _ && negb _) eqn:K in V.
  - destruct p as [c d]. cbn [validate_aux] in V. destruct (mem c added) eqn:M.
    + apply (REC (added ++ [d])); auto; [intros x X; apply in_or_app; auto|apply in_or_app; right; left; auto].
    + apply mem_false in M. exists c, d. split; [left; auto|]. split; [intros ->; auto|].
      intros u I. apply in_app_or in I. destruct I as [I|I].
      * apply M, INV. apply in_map_iff. exists (u, c); auto.
      * apply (R prev (c, d) r eq_refl (u, c) I). reflexivity.
  - apply (REC added); auto; [intros x X; auto|].
    apply andb_false_iff in K. destruct K as [K|K]; [apply andb_false_iff in K; destruct K as [K|K]|];
      apply negb_false_iff in K.
    + apply existsb_exists in K. destruct K as [q [Q E]]. apply String.eqb_eq in E. rewrite E. apply INV. apply in_map; auto.
    + apply existsb_exists in K. destruct K as [q [Q E]]. unfold same_views, pair_eqb in E.
      apply orb_true_iff in E. destruct E as [E|E]; apply andb_true_iff in E; destruct E as [E1 E2];
        apply String.eqb_eq in E1; apply String.eqb_eq in E2.
      * rewrite E2. apply INV. apply in_map; auto.
      * exfalso. apply in_split in Q. destruct Q as [l1 [l2 ->]]. rewrite <- app_assoc in R. simpl in R.
        apply (respects_before _ _ _ p R); auto. apply in_or_app; right; left; auto.
    + apply mem_In in K. destruct HP as [b [r0 E]]. rewrite E in *. simpl in K.
      destruct K as [<-|[<-|K]]; auto; apply INV; simpl; auto.
Qed.

(** The choice fails only when no view at a join touching a required view reaches all of them, or when
    two required views are heads: then the joins between required views are given up although others
    may do. *)
Theorem C14_many_refused vs g comp topo sp req k :
  build vs = Ok g -> no_self_reference vs ->
  topological_contract topo -> shortest_path_contract g sp ->
  NoDup req -> 3 <= List.length req ->
  joins g comp topo sp req = Err k ->
  k = JoinError /\
  ((forall x, may_start g req x -> exists v, In v req /\ ~ reaches g (fst x) v) \/
   (exists a c, a <> c /\ head_of g req a /\ head_of g req c)).
Proof.
  intros B NS T S NR LR J.
  split; [eapply C13_only_join_error; eauto; intros ->; simpl in LR; lia|].
  pose proof (build_nodup _ _ B) as ND.
  destruct (determine_join_order g comp topo sp req) as [ps|k'] eqn:D.
  { exfalso. unfold joins in J. rewrite D in J. cbn [bind] in J.
    destruct (determine_ok g comp topo sp ND (build_positive _ _ B) T S req (build_no_loops _ _ B NS) NR) as [[ps' [D' [TR C]]]|D'];
      [lia| |congruence].
    destruct (tree_joins _ _ _ TR C) as [j [js' [final [O' _]]]]. congruence. }
  assert (F : fallback g comp sp req = Err k' -> forall x, may_start g req x -> exists v, In v req /\ ~ reaches g (fst x) v).
  { intros F. assert (GR : greedy g comp sp req = Err k').
    { destruct req as [|a [|b [|c r]]]; simpl in LR; try lia. exact F. }
    destruct (greedy_pick g sp ND (build_positive _ _ B) S comp req (build_no_loops _ _ B NS)) as [_ P]. eauto. }
  unfold determine_join_order in D.
  destruct req as [|x [|y r]]; simpl in LR; try lia. set (rq := x :: y :: r) in *.
  destruct (topo (sub_edges g rq)) as [raw|] eqn:TP; [|left; auto].
  change (1 <? List.length rq) with true in D. cbv iota zeta in D.
  destruct (validate_join_path (clean_view_pairs raw) rq) as [[|]|e] eqn:V; cbn [bind] in D; [left; auto|discriminate|].
  right. destruct (proj1 T _ _ TP) as [PM RS].
  assert (HE : forall u v, In (u, v) raw <-> In u rq /\ In v rq /\ has_edge g u v).
  { intros u v. rewrite <- (sub_edges_In g rq u v ND). split; apply Permutation_in; [|symmetry]; exact PM. }
  destruct raw as [|[a b] raw']; [discriminate|].
  rewrite clean_head in V. unfold validate_join_path in V.
  destruct (validate_aux (clean_aux [(a, b)] raw') [a; b]) as [l|e'] eqn:VA; [discriminate|].
  destruct (failed_clean a raw' [(a, b)] [a; b] e') as [c [d [I [N K]]]]; auto.
  { exists b, []; auto. }
  { simpl; auto. }
  { simpl. intros z [<-|[]]; auto. }
  destruct (proj1 (HE a b) (or_introl eq_refl)) as [A1 [A2 A3]].
  destruct (proj1 (HE c d) (or_intror I)) as [C1 [C2 C3]].
  exists a, c. split; [congruence|]. split.
  - split; auto. split; [exists b; auto|]. intros u U E.
    assert (X : In (u, a) ((a, b) :: raw')) by (apply HE; auto).
    apply (RS [] (a, b) raw' eq_refl (u, a) X). reflexivity.
  - split; auto. split; [exists d; auto|]. intros u U E. apply (K u). apply HE; auto.
Qed.
Print Assumptions C14_many_refused.

(** And it does fail when there is no such view. *)
Theorem C14_many_none vs g comp topo sp req :
  build vs = Ok g -> no_self_reference vs ->
  topological_contract topo -> shortest_path_contract g sp ->
  NoDup req -> 3 <= List.length req ->
  (forall x, may_start g req x -> exists v, In v req /\ ~ reaches g (fst x) v) ->
  joins g comp topo sp req = Err JoinError.
Proof.
  intros B NS T S NR LR H.
  assert (RN : req <> []) by (intros ->; simpl in LR; lia).
  destruct (joins g comp topo sp req) as [js|k] eqn:J.
  2: { f_equal. eapply C13_only_join_error; eauto. }
  exfalso.
  destruct (C13_from_clause_well_formed vs g comp topo sp req js B NS T S RN NR J) as [base [final [BV [JF IN]]]].
  destruct js as [|j rest].
  { inversion JF; subst. destruct req as [|a [|b r]]; simpl in LR; try lia.
    inversion NR; subst. destruct (IN a (or_introl eq_refl)) as [X|[]]. destruct (IN b (or_intror (or_introl eq_refl))) as [Y|[]].
    subst. apply H2. left; auto. }
  assert (RC : forall js present fin, (forall x, In x present -> reaches g base x) -> joins_from g present js fin ->
    forall x, In x fin -> reaches g base x).
  { induction js as [|i l IH]; intros pr fin P Q x X; inversion Q as [|? ? ? ? Q1 Q2 Q3 Q4]; subst; auto.
    eapply (IH (jn_view i :: pr)); eauto. intros z [<-|Z]; auto. eapply reaches_trans; [apply P; eauto|eapply reaches_edge; eauto]. }
  simpl in BV. inversion BV; subst base.
  assert (RA : forall v, In v req -> reaches g (jn_base j) v).
  { intros v I. eapply RC; [|exact JF|apply IN; auto]. intros z [<-|[]]. apply reaches_refl. }
  assert (MS : may_start g req (jn_base j, jn_view j)).
  { destruct (C14_many vs g comp topo sp req _ B NS T S NR LR J) as [K|[j' [r' [E [M _]]]]].
    - destruct (K j (or_introl eq_refl)) as [K1 K2]. split; [|left; auto]. inversion JF; subst. simpl. eauto.
    - inversion E; subst. auto. }
  destruct (H _ MS) as [v [I N]]. apply N. simpl. auto.
Qed.
Print Assumptions C14_many_none.

Lemma clean_all_targets : forall todo prev x, respects (prev ++ todo) ->
  In x (map snd todo) ->
  In x (map snd (clean_aux prev todo)) \/ In x (map snd prev) \/ (exists b r, prev = (x, b) :: r).
Proof.
  induction todo as [|p r IH]; intros prev x R I; [destruct I|].
  assert (AS : (prev ++ [p]) ++ r = prev ++ p :: r) by (rewrite <- app_assoc; reflexivity).
  cbn [clean_aux]. cbv zeta.
  assert (HERE : In (snd p) (map snd (if negb (existsb (fun q => String.eqb (snd p) (snd q)) prev) &&
       negb (existsb (same_views p) prev) && negb (mem (snd p) (included prev))
       then p :: clean_aux (prev ++ [p]) r else clean_aux (prev ++ [p]) r)) \/ In (snd p) (map snd prev) \/
       exists b r0, prev = (snd p, b) :: r0).
  { destruct (negb _ && negb _ && negb _) eqn:K; [left; left; auto|]. right.
    apply andb_false_iff in K. destruct K as [K|K]; [apply andb_false_iff in K; destruct K as [K|K]|];
      apply negb_false_iff in K.
    - apply existsb_exists in K. destruct K as [q [Q E]]. apply String.eqb_eq in E. rewrite E. left. apply in_map; auto.
    - apply existsb_exists in K. destruct K as [q [Q E]]. unfold same_views, pair_eqb in E.
      apply orb_true_iff in E. destruct E as [E|E]; apply andb_true_iff in E; destruct E as [E1 E2];
        apply String.eqb_eq in E1; apply String.eqb_eq in E2.
      + rewrite E2. left. apply in_map; auto.
      + exfalso. apply in_split in Q. destruct Q as [l1 [l2 ->]]. rewrite <- app_assoc in R. simpl in R.
        apply (respects_before _ _ _ p R); auto. apply in_or_app; right; left; auto.
    - apply mem_In in K. destruct prev as [|[a b] pr]; [destruct K|]. simpl in K.
      destruct K as [->|[<-|K]]; [right; eauto|left; simpl; auto|left; simpl; auto]. }
  destruct I as [<-|I]; [exact HERE|].
  destruct (IH (prev ++ [p]) x) as [X|[X|[b [r0 X]]]]; [rewrite AS; auto|auto| | |].
  - left. destruct (negb _ && negb _ && negb _); [right|]; auto.
  - rewrite map_app in X. apply in_app_or in X. destruct X as [X|[<-|[]]]; auto.
  - destruct prev as [|q pr]; [|inversion X; subst; right; right; eauto].
    simpl in X. inversion X; subst. exfalso.
    apply in_map_iff in I. destruct I as [q [Q1 Q2]]. apply (R [] (x, b) r eq_refl q); [right; auto|auto].
Qed.

(** No ring of joins among the required views: every group of them has a member to which no other is joined. *)
Definition no_ring (g : graph) (req : list string) : Prop :=
  forall s, s <> [] -> incl s req -> exists v, In v s /\ forall u, In u s -> ~ has_edge g u v.

(** When the required views are joined to one another, without a ring and with a single head, no other
    view is brought in, and the head is the base of the query. *)
Theorem C14_direct vs g comp topo sp req h :
  build vs = Ok g -> no_self_reference vs ->
  topological_contract topo -> shortest_path_contract g sp ->
  NoDup req -> 3 <= List.length req ->
  no_ring g req -> In h req ->
  (forall u, In u req -> ~ has_edge g u h) ->
  (forall v, In v req -> v <> h -> exists u, In u req /\ has_edge g u v) ->
  exists js, joins g comp topo sp req = Ok js /\ base_view_name req js = Ok h /\
    forall j, In j js -> In (jn_base j) req /\ In (jn_view j) req.
Proof.
  intros B NS T S NR LR RING IH HH OTH.
  pose proof (build_nodup _ _ B) as ND.
  assert (RN : req <> []) by (intros ->; simpl in LR; lia).
  destruct (topo (sub_edges g req)) as [raw|] eqn:TP.
  2: { exfalso. destruct (proj2 T _ TP) as [s [SN [SI SE]]].
       assert (EDG : forall e, In e s -> In (fst e) req /\ has_edge g (fst e) (snd e)).
       { intros [u v] I. apply SI in I. apply sub_edges_In in I; auto. simpl. tauto. }
       destruct (RING (map fst s)) as [v [V K]].
       { destruct s; [congruence|discriminate]. }
       { intros x X. apply in_map_iff in X. destruct X as [e [<- X]]. apply EDG; auto. }
       apply in_map_iff in V. destruct V as [e [<- V]]. destruct (SE e V) as [e' [V' Q]].
       apply (K (fst e')); [apply in_map; auto|]. rewrite <- Q. apply EDG; auto. }
  destruct (proj1 T _ _ TP) as [PM RS].
  assert (HE : forall u v, In (u, v) raw <-> In u req /\ In v req /\ has_edge g u v).
  { intros u v. rewrite <- (sub_edges_In g req u v ND). split; apply Permutation_in; [|symmetry]; exact PM. }
  assert (TWO : exists v, In v req /\ v <> h).
  { destruct req as [|x [|y r]]; simpl in LR; try lia. inversion NR; subst.
    destruct (string_dec x h) as [->|N]; [exists y|exists x]; simpl; split; auto. intros ->. apply H1. left; auto. }
  destruct raw as [|[a b] raw'].
  { exfalso. destruct TWO as [v [V N]]. destruct (OTH v V N) as [u [U E]]. apply (proj2 (HE u v)); auto. }
  assert (AH : a = h).
  { destruct (string_dec a h) as [|N]; auto. exfalso.
    destruct (proj1 (HE a b) (or_introl eq_refl)) as [A1 _]. destruct (OTH a A1 N) as [u [U E]].
    assert (X : In (u, a) ((a, b) :: raw')) by (apply HE; auto).
    apply (RS [] (a, b) raw' eq_refl (u, a) X). reflexivity. }
  subst a.
  assert (NBH : b <> h). { intros ->. apply (RS [] (h, h) raw' eq_refl (h, h)); [left; auto|reflexivity]. }
  assert (VAL : validate_join_path (clean_view_pairs ((h, b) :: raw')) req = Ok false).
  { rewrite clean_head. unfold validate_join_path.
    destruct (validate_aux (clean_aux [(h, b)] raw') [h; b]) as [added|e'] eqn:VA.
    - cbn [bind]. f_equal. destruct (existsb _ req) eqn:X; auto. exfalso.
      apply existsb_exists in X. destruct X as [v [V M]]. apply negb_true_iff in M. apply mem_false in M. apply M.
      destruct (validate_ok g h (clean_aux [(h, b)] raw') [h; b] added) as [_ AD]; auto.
      { intros p I. split.
        - intros E. apply clean_target in I. apply I. simpl. auto.
        - destruct p as [u w]. apply clean_incl in I. destruct (proj1 (HE u w) (or_intror I)) as [_ [_ E]]. exact E. }
      apply AD. destruct (string_dec v h) as [->|N]; [left; left; auto|].
      destruct (OTH v V N) as [u [U E]].
      destruct (proj2 (HE u v) (conj U (conj V E))) as [Q|Q]; [inversion Q; subst; left; right; left; auto|].
      destruct (clean_all_targets raw' [(h, b)] v RS) as [X|[X|[b' [r' X]]]].
      { apply in_map_iff. exists (u, v); auto. }
      { right; auto. }
      { destruct X as [<-|[]]. left; right; left; auto. }
      { inversion X; subst. congruence. }
    - exfalso. destruct (failed_clean h raw' [(h, b)] [h; b] e') as [c [d [I [N K]]]]; auto.
      { exists b, []; auto. }
      { simpl; auto. }
      { simpl. intros z [<-|[]]; auto. }
      destruct (proj1 (HE c d) (or_intror I)) as [C1 _]. destruct (OTH c C1 N) as [u [U E]].
      apply (K u). apply HE; auto. }
  assert (D : determine_join_order g comp topo sp req = Ok (clean_view_pairs ((h, b) :: raw'))).
  { unfold determine_join_order. destruct req as [|x [|y r]]; simpl in LR; try lia. rewrite TP.
    change (1 <? List.length (x :: y :: r)) with true. cbv iota zeta. rewrite VAL. reflexivity. }
  destruct (topo_tree g topo ND T _ req _ TP eq_refl RN VAL) as [TR C].
  destruct (tree_joins _ _ _ TR C) as [j [js' [final [O' _]]]].
  exists (j :: js'). unfold joins. rewrite D. cbn [bind]. split; auto.
  rewrite clean_head in O'. destruct (ordered_head _ _ _ _ _ O') as [j' [rest [E1 E2]]]. inversion E1; subst j' rest. inversion E2.
  split; [simpl; congruence|].
  intros i I. apply (ordered_incl _ _ _ _ O') in I. rewrite <- clean_head in I. apply clean_incl in I.
  apply HE in I. tauto.
Qed.
Print Assumptions C14_direct.

(** Concrete case: three views joined by two hubs; the bridge is tried first, otherwise the alphabet
    decides; and without a hub there is no plan. *)
Definition hubs_vs : list gview :=
  [ GView "hub" [simple_id "a_id" TForeign; simple_id "b_id" TForeign; simple_id "c_id" TForeign];
    GView "zhub" [simple_id "a_id" TForeign; simple_id "b_id" TForeign; simple_id "c_id" TForeign];
    GView "a" [simple_id "a_id" TPrimary]; GView "b" [simple_id "b_id" TPrimary]; GView "c" [simple_id "c_id" TPrimary] ].
Definition hubs : graph := match build hubs_vs with Ok g => g | Err _ => [] end.
Example C14_many_case :
  build hubs_vs = Ok hubs /\ no_self_reference hubs_vs /\ NoDup ["c"; "a"; "b"] /\
  topological_contract nx_topo /\ shortest_path_contract hubs (nx_sp hubs) /\
  (exists js, joins hubs [(["a"; "c"], "zhub")] nx_topo (nx_sp hubs) ["c"; "a"; "b"] = Ok js /\
     map (fun j => (jn_base j, jn_view j)) js = [("zhub", "a"); ("zhub", "b"); ("zhub", "c")]) /\
  (exists js, joins hubs [] nx_topo (nx_sp hubs) ["c"; "a"; "b"] = Ok js /\
     map (fun j => (jn_base j, jn_view j)) js = [("hub", "a"); ("hub", "b"); ("hub", "c")]) /\
  joins hubs [] nx_topo (nx_sp hubs) ["hub"; "zhub"; "a"] = Err JoinError.
Proof.
  split; [reflexivity|]. split.
  { intros v i V I T. simpl in V. destruct V as [<-|[<-|[<-|[<-|[<-|[]]]]]]; simpl in I;
      repeat (destruct I as [<-|I]; [discriminate|]); destruct I. }
  split. { repeat constructor; simpl; intuition discriminate. }
  split; [apply nx_topo_contract|]. split; [apply nx_sp_contract|].
  split; [eexists; split; vm_compute; reflexivity|]. split; [eexists; split; vm_compute; reflexivity|]. vm_compute; reflexivity.
Qed.

(** Concrete case of a direct plan: a chain of three views, with a hub that would join them too. *)
Definition chain_vs : list gview :=
  [ GView "ahub" [simple_id "x_id" TForeign; simple_id "y_id" TForeign; simple_id "z_id" TForeign];
    GView "x" [simple_id "x_id" TPrimary; simple_id "y_id" TForeign];
    GView "y" [simple_id "y_id" TPrimary; simple_id "z_id" TForeign]; GView "z" [simple_id "z_id" TPrimary] ].
Definition chain : graph := match build chain_vs with Ok g => g | Err _ => [] end.
Example C14_direct_case :
  build chain_vs = Ok chain /\ no_self_reference chain_vs /\ no_ring chain ["z"; "x"; "y"] /\
  (forall u, In u ["z"; "x"; "y"] -> ~ has_edge chain u "x") /\
  (forall v, In v ["z"; "x"; "y"] -> v <> "x" -> exists u, In u ["z"; "x"; "y"] /\ has_edge chain u v) /\
  exists js, joins chain [] nx_topo (nx_sp chain) ["z"; "x"; "y"] = Ok js /\
    map (fun j => (jn_base j, jn_view j)) js = [("x", "y"); ("y", "z")].
Proof.
  assert (E : forall u v, In u ["z"; "x"; "y"] -> In v ["z"; "x"; "y"] -> has_edge chain u v -> (u = "x" /\ v = "y") \/ (u = "y" /\ v = "z")).
  { intros u v U V [e H]. simpl in U, V. destruct U as [<-|[<-|[<-|[]]]]; destruct V as [<-|[<-|[<-|[]]]];
      vm_compute in H; try discriminate; auto. }
  split; [reflexivity|]. split.
  { intros v i V I T. simpl in V. destruct V as [<-|[<-|[<-|[<-|[]]]]]; simpl in I;
      repeat (destruct I as [<-|I]; [discriminate|]); destruct I. }
  split.
  { intros s SN SI. destruct (in_dec string_dec "x" s) as [X|X].
    { exists "x". split; auto. intros u U H. destruct (E u "x" (SI _ U) (SI _ X) H) as [[_ K]|[_ K]]; discriminate. }
    destruct (in_dec string_dec "y" s) as [Y|Y].
    { exists "y". split; auto. intros u U H. destruct (E u "y" (SI _ U) (SI _ Y) H) as [[-> K]|[_ K]]; [auto|discriminate]. }
    destruct s as [|v s]; [congruence|]. exists v. split; [left; auto|]. intros u U H.
    destruct (E u v (SI _ U) (SI _ (or_introl eq_refl)) H) as [[-> K]|[-> K]]; auto. }
  split.
  { intros u U H. destruct (E u "x" U (or_intror (or_introl eq_refl)) H) as [[_ K]|[_ K]]; discriminate. }
  split.
  { intros v V N. simpl in V. destruct V as [<-|[<-|[<-|[]]]]; [exists "y"|congruence|exists "x"];
      (split; [simpl; auto|eexists; vm_compute; reflexivity]). }
  eexists. split; vm_compute; reflexivity.
Qed.
