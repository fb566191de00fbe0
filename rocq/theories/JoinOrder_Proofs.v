(** Proofs about join ordering. *)
From Coq Require Import Lia.
From Verif Require Import PyBase PyStr PySort PyGraph JoinGraph_Model JoinGraph_Spec JoinOrder_Model JoinOrder_Spec.
Local Open Scope string_scope.
Local Open Scope list_scope.
Local Open Scope nat_scope.

(** * Walks *)
Lemma walk_app g s p m q t w1 w2 : walk g s p m w1 -> walk g m q t w2 -> walk g s (p ++ q) t (w1 + w2).
Proof.
  induction 1; simpl; intros; auto. rewrite <- Nat.add_assoc. econstructor; eauto.
Qed.

Lemma walk_split g s p : forall x q t w, walk g s (p ++ x :: q) t w ->
  exists w1 w2, walk g s (p ++ [x]) x w1 /\ walk g x q t w2 /\ w = w1 + w2.
Proof.
  revert s. induction p as [|y p IH]; simpl; intros s x q t w H; inversion H; subst.
  - exists (e_weight e + 0), w0. split; [eapply walk_cons; eauto using walk_nil|]. split; [auto|lia].
  - destruct (IH _ _ _ _ _ H6) as [w1 [w2 [A [B ->]]]].
    exists (e_weight e + w1), w2. split; [econstructor; eauto|]. split; [auto|lia].
Qed.

Lemma walk_pos g s p t w : positive g -> walk g s p t w -> p <> [] -> 0 < w.
Proof. intros P H. destruct H; [congruence|]. intros _. specialize (P _ _ _ H). lia. Qed.

Lemma walk_weight g s p t w : walk g s p t w -> path_weight g (s :: p) = w.
Proof.
  induction 1; simpl; auto. rewrite H. simpl in IHwalk. destruct rest; simpl in *; lia.
Qed.

Lemma walk_last g s p t w : walk g s p t w -> In t (s :: p).
Proof. induction 1; simpl in *; tauto. Qed.

Lemma walk_end g s p t w : walk g s p t w -> s = t \/ In t p.
Proof. intros H. apply walk_last in H. destruct H; auto. Qed.

(** A cheapest walk does not return to a node from which a walk is just as available. *)
Lemma cheapest_no_return g s t rest w x :
  positive g -> walk g s rest t w -> In x rest ->
  exists rest' w', walk g x rest' t w' /\ w' < w.
Proof.
  intros P H I. apply in_split in I. destruct I as [a [b ->]].
  apply walk_split in H. destruct H as [w1 [w2 [A [B ->]]]].
  exists b, w2. split; auto.
  assert (0 < w1) by (eapply walk_pos; eauto; destruct a; discriminate). lia.
Qed.

(** * Growing lists of pairs *)
Fixpoint ok_pairs (g : graph) (base : string) (present : list string) (pairs : list vpair) : Prop :=
  match pairs with
  | [] => True
  | (a, b) :: r => In a present /\ b <> base /\ (exists e, get_edge g a b = Some e) /\ ok_pairs g base (b :: present) r
  end.

Lemma ok_incl g base ps : forall a b, incl a b -> ok_pairs g base a ps -> ok_pairs g base b ps.
Proof.
  induction ps as [|[u v] r IH]; simpl; intros a b I H; auto.
  destruct H as [H1 [H2 [H3 H4]]]. split; [auto|]. split; [auto|]. split; [auto|].
  eapply IH; [|exact H4]. intros x [->|X]; simpl; auto.
Qed.

Lemma ok_app g base p : forall pr q,
  ok_pairs g base pr p -> ok_pairs g base (map snd p ++ pr) q -> ok_pairs g base pr (p ++ q).
Proof.
  induction p as [|[u v] r IH]; simpl; intros pr q H Q; auto.
  destruct H as [H1 [H2 [H3 H4]]]. split; [auto|]. split; [auto|]. split; [auto|].
  apply IH; auto. eapply ok_incl; [|exact Q].
  intros x [->|X]; [apply in_or_app; right; left; auto|].
  apply in_app_or in X. destruct X; apply in_or_app; simpl; auto.
Qed.

Lemma zip_map_snd g s p t w : walk g s p t w -> map snd (zip_path (s :: p)) = p.
Proof. unfold zip_path. simpl. induction 1; simpl; auto. f_equal. auto. Qed.

Lemma ok_walk g base s p t w : walk g s p t w -> forall pr,
  In s pr -> ~ In base p -> ok_pairs g base pr (zip_path (s :: p)).
Proof.
  induction 1; unfold zip_path in *; simpl in *; intros pr I N; auto.
  split; auto. split; [intuition|]. split; [eauto|].
  apply IHwalk; simpl; auto.
Qed.

Lemma ordered_ok g base pairs : forall joined present,
  (forall x, In x present <-> x = base \/ In x joined) ->
  ok_pairs g base present pairs ->
  exists js final, ordered_joins_aux g pairs joined = Ok js /\ joins_from g present js final /\
    (forall x, In x final <-> In x present \/ In x (map snd pairs)).
Proof.
  induction pairs as [|[u v] r IH]; simpl; intros joined present E H.
  - exists [], present. split; auto. split; [constructor|]. tauto.
  - destruct H as [Hu [Hv [[e He] Hr]]]. unfold get_join. rewrite He. simpl.
    destruct (mem v joined) eqn:M.
    + apply mem_In in M.
      destruct (IH (v :: joined) present) as [js [final [A [B C]]]].
      { intros x. rewrite E. simpl. split; intros [X|X]; auto; destruct X; subst; auto. }
      { eapply ok_incl; [|exact Hr]. intros x [<-|X]; auto. apply E. auto. }
      rewrite A. simpl. exists js, final. split; auto. split; auto.
      intros x. rewrite C. split; [intuition|]. intros [X|[<-|X]]; auto. left. apply E. auto.
    + apply mem_false in M.
      destruct (IH (v :: joined) (v :: present)) as [js [final [A [B C]]]].
      { intros x. simpl. rewrite E. intuition. }
      { exact Hr. }
      rewrite A. simpl. exists (Join u v e :: js), final. split; auto. split.
      * constructor; simpl; auto. rewrite E. intros [X|X]; auto.
      * intros x. rewrite C. simpl. intuition.
Qed.

(** * Cleaning *)
Lemma clean_head p r : clean_view_pairs (p :: r) = p :: clean_aux [p] r.
Proof. reflexivity. Qed.

Lemma clean_incl todo : forall prev x, In x (clean_aux prev todo) -> In x todo.
Proof.
  induction todo as [|p r IH]; simpl; intros prev x H; auto.
  destruct (negb _ && negb _ && negb _) in H; simpl in H; [destruct H as [->|H]; auto|]; right; eapply IH; eauto.
Qed.

Lemma clean_target todo : forall prev x, In x (clean_aux prev todo) -> ~ In (snd x) (included prev).
Proof.
  induction todo as [|p r IH]; simpl; intros prev x H; auto.
  assert (R : In x (clean_aux (prev ++ [p]) r) -> ~ In (snd x) (included prev)).
  { intros X I. apply (IH _ _ X). destruct prev as [|[a b] pr]; [destruct I|].
    simpl in *. rewrite map_app. destruct I as [I|[I|I]]; auto. right. right. apply in_or_app; auto. }
  destruct (negb _ && negb _ && negb _) eqn:K in H; simpl in H; auto.
  destruct H as [<-|H]; auto.
  apply andb_true_iff in K. destruct K as [_ K]. apply negb_true_iff in K. apply mem_false in K. auto.
Qed.

(** * The topological branch *)
Lemma validate_ok g base pairs : forall added added',
  (forall p, In p pairs -> snd p <> base /\ exists e, get_edge g (fst p) (snd p) = Some e) ->
  validate_aux pairs added = Ok added' ->
  ok_pairs g base added pairs /\ (forall x, In x added' <-> In x added \/ In x (map snd pairs)).
Proof.
  induction pairs as [|[a b] r IH]; simpl; intros added added' H V.
  - inversion V; subst. tauto.
  - destruct (mem a added) eqn:M; [|discriminate]. apply mem_In in M.
    destruct (IH _ _ (fun p I => H p (or_intror I)) V) as [A B].
    destruct (H (a, b) (or_introl eq_refl)) as [N E]. simpl in *.
    split.
    + split; auto. split; auto. split; auto. eapply ok_incl; [|exact A].
      intros x X. apply in_app_or in X. destruct X as [X|[X|[]]]; simpl; auto.
    + intros x. rewrite B. rewrite in_app_iff. simpl. tauto.
Qed.

Lemma validate_err pairs : forall added x, validate_aux pairs added = Err x -> x = JoinError.
Proof.
  induction pairs as [|[a b] r IH]; simpl; intros added x H; [discriminate|].
  destruct (mem a added); eauto. inversion H; auto.
Qed.

Lemma g_edges_In g u v : In (u, v) (g_edges g) -> NoDup (map fst g) -> exists e, get_edge g u v = Some e.
Proof.
  unfold g_edges. rewrite in_flat_map. intros [[u' a] [I J]] ND. simpl in J.
  apply in_map_iff in J. destruct J as [[v' e] [E J]]. simpl in E. inversion E; subst.
  unfold get_edge.
  assert (A : assoc u g = Some a).
  { clear - I ND. induction g as [|[k x] r IH]; [destruct I|]. simpl in *. inversion ND; subst.
    destruct I as [I|I].
    - inversion I; subst. rewrite String.eqb_refl. auto.
    - destruct (String.eqb_spec u k); auto. subst. exfalso. apply H1. apply in_map_iff. exists (k, a). auto. }
  rewrite A. destruct (assoc v a) eqn:F; eauto. exfalso. eapply assoc_None; eauto.
  apply in_map_iff. exists (v, e). auto.
Qed.

Lemma get_edge_In g u v e : get_edge g u v = Some e -> In (u, v) (g_edges g).
Proof.
  unfold get_edge, g_edges. intros H. destruct (assoc u g) as [a|] eqn:A; [|discriminate].
  apply assoc_In in A. apply assoc_In in H. apply in_flat_map. exists (u, a). split; auto. simpl.
  apply in_map_iff. exists (v, e). auto.
Qed.

Lemma sub_edges_In g req u v :
  NoDup (map fst g) -> (In (u, v) (sub_edges g req) <-> In u req /\ In v req /\ exists e, get_edge g u v = Some e).
Proof.
  intros ND. unfold sub_edges. rewrite filter_In. simpl. rewrite andb_true_iff, !mem_In. split.
  - intros [A [B C]]. split; auto. split; auto. eapply g_edges_In; eauto.
  - intros [A [B [e C]]]. split; auto. eapply get_edge_In; eauto.
Qed.

Section Ord.
  Variable g : graph.
  Variable comp : list (list string * string).
  Variable topo : list vpair -> option (list vpair).
  Variable sp : string -> string -> option (list string).
  Hypothesis ND : NoDup (map fst g).
  Hypothesis POS : positive g.
  Hypothesis TOPO : topological_contract topo.
  Hypothesis SP : shortest_path_contract g sp.

  (** A list of pairs that can be joined one after the other, starting at its first view. *)
  Definition tree (pairs : list vpair) : Prop :=
    exists a b r, pairs = (a, b) :: r /\ ok_pairs g a [a] pairs.
  Definition covers (pairs : list vpair) (req : list string) : Prop :=
    forall v, In v req -> exists p, In p pairs /\ (v = fst p \/ v = snd p).

  Lemma tree_joins pairs req : tree pairs -> covers pairs req ->
    exists j js final, ordered_joins g pairs = Ok (j :: js) /\ joins_from g [jn_base j] (j :: js) final /\ incl req final.
  Proof.
    intros [a [b [r [-> H]]]] C.
    destruct (ordered_ok g a ((a, b) :: r) [] [a]) as [js [final [A [B D]]]]; auto.
    { intros x. simpl. intuition. }
    unfold ordered_joins. rewrite A.
    simpl in A. destruct H as [_ [Hb [[e He] Hr]]]. unfold get_join in A. rewrite He in A. simpl in A.
    destruct (ordered_joins_aux g r [b]) as [js'|] eqn:O; simpl in A; [|discriminate].
    inversion A; subst. exists (Join a b e), js', final. split; auto. split; auto.
    intros v V. destruct (C v V) as [p [P Q]]. apply D.
    assert (S : forall ps present, ok_pairs g a present ps -> In p ps -> In (fst p) present \/ In (fst p) (map snd ps)).
    { induction ps as [|[u w] rr IH]; simpl; intros present K I; [tauto|]. destruct K as [K1 [K2 [K3 K4]]].
      destruct I as [<-|I]; auto. destruct (IH _ K4 I) as [X|X]; auto. simpl in X. destruct X; auto. }
    destruct Q as [->| ->].
    - apply (S ((a, b) :: r) [a]); simpl; eauto 6.
    - right. apply in_map. auto.
  Qed.

  Lemma topo_tree raw req pairs :
    topo (sub_edges g req) = Some raw -> clean_view_pairs raw = pairs ->
    req <> [] -> validate_join_path pairs req = Ok false -> tree pairs /\ covers pairs req.
  Proof.
    intros T C R V.
    destruct (proj1 TOPO _ _ T) as [PM RS].
    assert (ED : forall p, In p raw -> exists e, get_edge g (fst p) (snd p) = Some e).
    { intros [u v] I. eapply Permutation_in in I; [|exact PM]. apply sub_edges_In in I; auto. simpl. tauto. }
    destruct raw as [|[a b] raw'].
    { simpl in C. subst. unfold validate_join_path in V. simpl in V. destruct req; [congruence|]. discriminate. }
    rewrite clean_head in C. subst pairs. unfold validate_join_path in V. cbv beta iota in V.
    apply bind_ok in V. destruct V as [added [VA V]].
    assert (NAB : b <> a). { apply (RS [] (a, b) raw' eq_refl (a, b)). left; auto. }
    assert (OKP : ok_pairs g a [a; b] (clean_aux [(a, b)] raw') /\
                  (forall x, In x added <-> In x [a; b] \/ In x (map snd (clean_aux [(a, b)] raw')))).
    { apply validate_ok; auto. intros p I. split.
      - intros E. apply clean_target in I. apply I. simpl. auto.
      - apply ED. right. eapply clean_incl; eauto. }
    destruct OKP as [OKP AD].
    split.
    - exists a, b, (clean_aux [(a, b)] raw'). split; auto. simpl. split; auto. split; auto. split.
      + apply (ED (a, b)). left; auto.
      + eapply ok_incl; [|exact OKP]. intros x [X|[X|[]]]; simpl; auto.
    - intros v I. inversion V as [V']. 
      assert (M : In v added).
      { destruct (mem v added) eqn:M; [apply mem_In in M; auto|]. exfalso.
        assert (existsb (fun v => negb (mem v added)) req = true); [|congruence].
        apply existsb_exists. exists v. rewrite M. auto. }
      apply AD in M. destruct M as [M|M].
      + exists (a, b). simpl. split; auto. simpl in M. intuition.
      + apply in_map_iff in M. destruct M as [p [<- M]]. exists p. split; [right; auto|auto].
  Qed.

  (** * Shortest paths *)
  Lemma path_leb_total a b : path_leb a b = true \/ path_leb b a = true.
  Proof.
    unfold path_leb. destruct (Nat.ltb_spec (snd a) (snd b)); simpl; auto.
    destruct (Nat.ltb_spec (snd b) (snd a)); simpl; auto.
    assert (snd a = snd b) by lia. rewrite H1, !Nat.eqb_refl. simpl. apply String.leb_total.
  Qed.
  Lemma path_leb_trans a b c : path_leb a b = true -> path_leb b c = true -> path_leb a c = true.
  Proof.
    unfold path_leb. rewrite !orb_true_iff, !andb_true_iff, !Nat.ltb_lt, !Nat.eqb_eq.
    intros [H|[H H']] [K|[K K']].
    - left; lia.
    - left; lia.
    - left; lia.
    - right. split; [lia|]. eapply str_leb_trans; eauto.
  Qed.

  Lemma shortest_between_Some pairs p : shortest_between g sp pairs = Some p ->
    exists s t rest w, In (s, t) pairs /\ sp s t = Some p /\ p = s :: rest /\ walk g s rest t w /\
      (forall s' t' rest' w', In (s', t') pairs -> walk g s' rest' t' w' -> w <= w').
  Proof.
    unfold shortest_between. set (found := found_paths g sp pairs).
    destruct (isort path_leb found) as [|x l] eqn:I; [discriminate|]. intros E; inversion E; subst; clear E.
    assert (X : In x found). { apply (isort_In path_leb). rewrite I. left; auto. }
    unfold found, found_paths in X. apply in_flat_map in X. destruct X as [[s t] [J X]]. simpl in X.
    destruct (sp s t) as [q|] eqn:Q; [|destruct X]. destruct X as [<-|[]]. simpl.
    destruct (proj1 SP _ _ _ Q) as [rest [w [-> [W M]]]].
    exists s, t, rest, w. split; auto. split; auto. split; auto. split; auto.
    intros s' t' rest' w' J' W'.
    destruct (sp s' t') as [q'|] eqn:Q'.
    2: { exfalso. apply (proj2 SP _ _ Q' _ _ W'). }
    destruct (proj1 SP _ _ _ Q') as [rest2 [w2 [-> [W2 M2]]]].
    assert (Y : In (s' :: rest2, path_weight g (s' :: rest2)) found).
    { unfold found, found_paths. apply in_flat_map. exists (s', t'). split; auto. simpl. rewrite Q'. left; auto. }
    apply (isort_In path_leb) in Y. rewrite I in Y.
    assert (L : path_leb (s :: rest, path_weight g (s :: rest)) (s' :: rest2, path_weight g (s' :: rest2)) = true).
    { pose proof (isort_sorted path_leb path_leb_total path_leb_trans found) as SO. rewrite I in SO.
      destruct Y as [Y|Y].
      - rewrite Y. destruct (path_leb_total (s' :: rest2, path_weight g (s' :: rest2)) (s' :: rest2, path_weight g (s' :: rest2))); auto.
      - inversion SO; subst. auto. }
    rewrite (walk_weight _ _ _ _ _ W), (walk_weight _ _ _ _ _ W2) in L.
    specialize (M2 _ _ W'). unfold path_leb in L. simpl in L.
    apply orb_true_iff in L. destruct L as [L|L].
    - apply Nat.ltb_lt in L. lia.
    - apply andb_true_iff in L. destruct L as [L _]. apply Nat.eqb_eq in L. lia.
  Qed.

  Lemma shortest_between_None pairs s t rest w :
    shortest_between g sp pairs = None -> In (s, t) pairs -> ~ walk g s rest t w.
  Proof.
    unfold shortest_between. set (found := found_paths g sp pairs).
    destruct (isort path_leb found) as [|x l] eqn:I; [|discriminate]. intros _ J W.
    destruct (sp s t) as [q|] eqn:Q.
    2: { apply (proj2 SP _ _ Q _ _ W). }
    assert (Y : In (q, path_weight g q) found).
    { unfold found, found_paths. apply in_flat_map. exists (s, t). split; auto. simpl. rewrite Q. left; auto. }
    apply (isort_In path_leb) in Y. rewrite I in Y. destruct Y.
  Qed.

  (** * The greedy search *)
  Lemma add_pass_ok a anchors missing : forall pairs still pairs' still',
    In a anchors -> incl anchors (a :: map snd pairs) ->
    ok_pairs g a [a] pairs -> ~ In a missing ->
    add_pass g sp anchors missing pairs still = (pairs', still') ->
    ok_pairs g a [a] pairs' /\ (exists more, pairs' = pairs ++ more) /\
    exists more', still' = still ++ more' /\ incl more' missing /\
      List.length more' <= List.length missing /\
      (forall v, In v missing -> In v more' \/ In v (map snd pairs')).
  Proof.
    induction missing as [|v r IH]; simpl; intros pairs still pairs' still' IA INC OKP NM H.
    - inversion H; subst. split; auto. split; [exists []; rewrite app_nil_r; auto|].
      exists []. rewrite app_nil_r. split; auto. split; [intros x []|]. split; [auto|intros v []].
    - destruct (shortest_between g sp (map (fun a0 => (a0, v)) anchors)) as [p|] eqn:S.
      + destruct (shortest_between_Some _ _ S) as [s [t [rest [w [J [_ [-> [W M]]]]]]]].
        apply in_map_iff in J. destruct J as [s0 [E J]]. inversion E; subst; clear E.
        assert (NB : ~ In a rest).
        { intros X. destruct (cheapest_no_return _ _ _ _ _ _ POS W X) as [r2 [w2 [W2 L]]].
          assert (w <= w2); [|lia]. eapply (M a t); eauto. apply in_map_iff. exists a; auto. }
        assert (IS : In s (a :: map snd pairs)) by (apply INC; auto).
        apply IH in H; auto.
        * destruct H as [A [[more B] [more' [C [D [L F]]]]]]. split; auto. split.
          { exists (zip_path (s :: rest) ++ more). rewrite B, <- app_assoc. auto. }
          exists more'. split; auto. split; [intros x X; right; auto|]. split; [lia|].
          intros x [<-|X]; auto. right.
          rewrite B, map_app, map_app, (zip_map_snd _ _ _ _ _ W).
          destruct (walk_end _ _ _ _ _ W) as [->|Q].
          -- simpl in IS. destruct IS as [->|IS]; [exfalso; auto|]. apply in_or_app; left. apply in_or_app; left; auto.
          -- apply in_or_app; left. apply in_or_app; right; auto.
        * intros x X. apply INC in X. rewrite map_app. destruct X as [->|X]; [left; auto|right].
          apply in_or_app; auto.
        * apply ok_app; auto. eapply ok_walk; eauto. apply in_or_app. simpl in *. destruct IS; auto.
      + apply IH in H; auto. destruct H as [A [B [more' [C [D [L F]]]]]]. split; auto. split; auto.
        exists (v :: more'). rewrite C, <- app_assoc. split; auto. split.
        { intros x [<-|X]; simpl; auto. }
        split; [simpl; lia|]. intros x [<-|X]; simpl; auto. destruct (F _ X); simpl; auto.
  Qed.

  Definition measure (missing : list string) (n : nat) : nat :=
    2 * List.length missing + (if Nat.eqb n (List.length missing) then 0 else 1).

  Lemma sort_str_length l : List.length (sort_str l) = List.length l.
  Proof. apply isort_length. Qed.

  Lemma add_missing_ok fuel : forall a b r0 missing pairs n,
    pairs = (a, b) :: r0 -> ok_pairs g a [a] pairs -> ~ In a missing ->
    measure missing n < fuel -> List.length missing <= n ->
    (exists pairs', add_missing g sp fuel missing pairs n = Ok pairs' /\ ok_pairs g a [a] pairs' /\
       (exists more, pairs' = pairs ++ more) /\ incl missing (map snd pairs')) \/
    add_missing g sp fuel missing pairs n = Err ValueError.
  Proof.
    induction fuel as [|f IH]; intros a b r0 missing pairs n E OKP NM MS LE; [unfold measure in MS; lia|].
    cbn [add_missing].
    replace (match pairs with [] => [] | p :: _ => fst p :: map snd pairs end) with (a :: map snd pairs) by (rewrite E; reflexivity).
    destruct (add_pass g sp (a :: map snd pairs) (sort_str missing) pairs []) as [pairs' still] eqn:P.
    assert (NS : ~ In a (sort_str missing)) by (rewrite sort_str_In; auto).
    destruct (add_pass_ok a (a :: map snd pairs) _ _ _ _ _ (in_eq _ _) (fun x X => X) OKP NS P)
      as [A [[more B] [more' [C [D [L F]]]]]].
    simpl in C. subst still. rewrite sort_str_length in L.
    destruct more' as [|m ms].
    - left. exists pairs'. split; auto. split; auto. split; [eauto|]. intros x X.
      destruct (F x); auto; [rewrite sort_str_In; auto|destruct H].
    - set (still := m :: ms) in *.
      destruct (Nat.eqb_spec (List.length still) n) as [Q|Q]; [right; auto|].
      assert (MS' : measure still (List.length missing) < f).
      { unfold measure in *. destruct (Nat.eqb_spec (List.length missing) (List.length still)) as [K|K].
        - destruct (Nat.eqb_spec n (List.length missing)); lia.
        - destruct (Nat.eqb_spec n (List.length missing)); lia. }
      assert (NA : ~ In a still) by (intros X; apply NS; apply D; auto).
      destruct (IH a b (r0 ++ more) still pairs' (List.length missing)) as [[p2 [G1 [G2 [[mo G3] G4]]]]|G]; auto.
      { rewrite B, E. auto. }
      left. exists p2. split; auto. split; auto. split.
      { exists (more ++ mo). rewrite G3, B, app_assoc. auto. }
      intros x X. destruct (F x) as [Y|Y]; [rewrite sort_str_In; auto|apply G4; auto|].
      rewrite G3, map_app. apply in_or_app; auto.
  Qed.

  Lemma greedy_build_ok start req :
    fst start <> snd start -> (exists e, get_edge g (fst start) (snd start) = Some e) ->
    (exists pairs, greedy_build_join g sp start req = Ok pairs /\ tree pairs /\ covers pairs req) \/
    greedy_build_join g sp start req = Err ValueError.
  Proof.
    destruct start as [a b]. simpl. intros NE ED. unfold greedy_build_join.
    change (clean_view_pairs [(a, b)]) with [(a, b)]. cbn [flat_map app fst snd].
    assert (OK1 : ok_pairs g a [a] [(a, b)]).
    { simpl. split; auto. }
    assert (CV : forall v, In v req -> mem v [a; b] = true -> exists p, In p [(a, b)] /\ (v = fst p \/ v = snd p)).
    { intros v _ M. apply mem_In in M. exists (a, b). simpl in *. intuition. }
    destruct (filter (fun v => negb (mem v [a; b])) req) as [|m ms] eqn:F.
    - left. exists [(a, b)]. split; auto. split; [exists a, b, []; auto|].
      intros v I. apply CV; auto. destruct (mem v [a; b]) eqn:M; auto. exfalso.
      assert (X : In v (filter (fun v => negb (mem v [a; b])) req)) by (apply filter_In; rewrite M; auto).
      rewrite F in X. destruct X.
    - set (missing := m :: ms) in *.
      assert (NM : ~ In a missing).
      { rewrite <- F, filter_In. intros [_ X]. simpl in X. rewrite String.eqb_refl in X. discriminate. }
      destruct (add_missing_ok (S (S (2 * List.length missing))) a b [] missing [(a, b)] (List.length missing))
        as [[p [A [B [[more C] D]]]]|E]; auto.
      { unfold measure. rewrite Nat.eqb_refl. lia. }
      left. exists p. split; auto. split.
      + exists a, b, more. rewrite C in *. auto.
      + intros v I. destruct (mem v [a; b]) eqn:M.
        * destruct (CV v I M) as [q [Q1 Q2]]. exists q. split; auto. rewrite C. apply in_or_app; auto.
        * assert (X : In v missing) by (rewrite <- F; apply filter_In; rewrite M; auto).
          apply D in X. apply in_map_iff in X. destruct X as [q [<- X]]. eauto.
  Qed.

  Lemma first_greedy_ok es req :
    (forall e, In e es -> fst e <> snd e /\ exists d, get_edge g (fst e) (snd e) = Some d) ->
    (exists pairs, first_greedy g sp es req = Ok pairs /\ tree pairs /\ covers pairs req) \/
    first_greedy g sp es req = Err JoinError.
  Proof.
    induction es as [|e r IH]; intros H; simpl; auto.
    destruct (H e (or_introl eq_refl)) as [A B].
    destruct (greedy_build_ok e req A B) as [[p [G1 G2]]|G].
    - rewrite G1. left. exists p. split; auto.
    - rewrite G. apply IH. intros x X. apply H. right; auto.
  Qed.

  Lemma greedy_ok req : no_loops g ->
    (exists pairs, greedy g comp sp req = Ok pairs /\ tree pairs /\ covers pairs req) \/
    greedy g comp sp req = Err JoinError.
  Proof.
    intros NL. apply first_greedy_ok. intros [u v] I. simpl.
    apply isort_In in I. apply filter_In in I. destruct I as [I _].
    apply g_edges_In in I; auto. destruct I as [e I]. split; eauto.
    intros ->. rewrite NL in I. discriminate.
  Qed.

  Lemma two_path_tree a b p : a <> b -> shortest_between g sp (both_ways a b) = Some p ->
    tree (zip_path p) /\ covers (zip_path p) [a; b].
  Proof.
    intros NE S. destruct (shortest_between_Some _ _ S) as [s [t [rest [w [J [Q [-> [W M]]]]]]]].
    assert (ST : s <> t). { destruct J as [E|[E|[]]]; inversion E; subst; auto. }
    assert (NB : ~ In s rest).
    { intros X. destruct (cheapest_no_return _ _ _ _ _ _ POS W X) as [r2 [w2 [W2 L]]].
      specialize (M s t _ _ J W2). lia. }
    pose proof (ok_walk g s s rest t w W [s] (or_introl eq_refl) NB) as OKP.
    inversion W; subst; [congruence|].
    split.
    - exists s, x, (zip_path (x :: rest0)). split; auto.
    - assert (CS : exists q, In q (zip_path (s :: x :: rest0)) /\ (s = fst q \/ s = snd q)).
      { exists (s, x). simpl. auto. }
      assert (CT : exists q, In q (zip_path (s :: x :: rest0)) /\ (t = fst q \/ t = snd q)).
      { destruct (walk_end _ _ _ _ _ W) as [?|X]; [congruence|].
        rewrite <- (zip_map_snd _ _ _ _ _ W) in X. apply in_map_iff in X.
        destruct X as [q [E X]]. exists q. auto. }
      intros v [<-|[<-|[]]]; destruct J as [E|[E|[]]]; inversion E; subst; auto.
  Qed.

  Lemma fallback_ok req : no_loops g -> NoDup req ->
    (exists pairs, fallback g comp sp req = Ok pairs /\ tree pairs /\ covers pairs req) \/
    fallback g comp sp req = Err JoinError.
  Proof.
    intros NL NR. unfold fallback.
    destruct req as [|a [|b [|c r]]]; try (apply greedy_ok; auto; fail).
    destruct (shortest_between g sp (both_ways a b)) as [p|] eqn:S; [|apply greedy_ok; auto].
    left. exists (zip_path p). split; auto. apply two_path_tree; auto.
    inversion NR; subst. simpl in *. intuition.
  Qed.

  Lemma determine_ok req : no_loops g -> NoDup req -> 1 < List.length req ->
    (exists pairs, determine_join_order g comp topo sp req = Ok pairs /\ tree pairs /\ covers pairs req) \/
    determine_join_order g comp topo sp req = Err JoinError.
  Proof.
    intros NL NR LR. unfold determine_join_order.
    destruct req as [|a [|b r]]; simpl in LR; try lia. clear LR.
    set (req := a :: b :: r) in *.
    assert (RN : req <> []) by discriminate.
    destruct (topo (sub_edges g req)) as [raw|] eqn:T; [|apply fallback_ok; auto].
    change (1 <? List.length req) with true. cbv iota.
    destruct (validate_join_path (clean_view_pairs raw) req) as [[|]|x] eqn:V; cbn [bind].
    - apply fallback_ok; auto.
    - left. exists (clean_view_pairs raw). split; auto. eapply topo_tree; eauto.
    - right. unfold validate_join_path in V.
      destruct (clean_view_pairs raw) as [|[u v] l]; simpl in V; [discriminate|].
      destruct (validate_aux l [u; v]) eqn:VA; simpl in V; [discriminate|]. inversion V; subst.
      apply validate_err in VA. subst; auto.
  Qed.

  (** * Two views *)
  Lemma two_subgraph a b : no_loops g -> a <> b ->
    forall e, In e (sub_edges g [a; b]) -> e = (a, b) \/ e = (b, a).
  Proof.
    intros NL NE [u v] I. apply sub_edges_In in I; auto. destruct I as [U [V [e E]]].
    simpl in U, V. destruct U as [<-|[<-|[]]]; destruct V as [<-|[<-|[]]]; auto; rewrite NL in E; discriminate.
  Qed.
End Ord.
