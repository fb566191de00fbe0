(** C13, C14, C47: the joins chosen for a query. *)
From Coq Require Import Lia.
From Verif Require Import PyBase PyStr PySort JoinGraph_Model JoinGraph_Spec JoinGraph_Proofs JoinGraph_Scc JoinGraph_Props
  JoinOrder_Model JoinOrder_Spec JoinOrder_Proofs JoinOrder_Nx.
Local Open Scope string_scope.
Local Open Scope list_scope.
Local Open Scope nat_scope.

(** No explicit join refers to the view that declares it. *)
Definition no_self_reference (vs : list gview) : Prop :=
  forall v i, In v vs -> In i (gv_ids v) -> ji_type i = TJoin -> ji_ref i <> gv_name v.

Lemma build_source vs g u v e : build vs = Ok g -> get_edge g u v = Some e -> In u (map gv_name vs).
Proof.
  intros H E. destruct (in_dec string_dec u (map gv_name vs)) as [I|N]; auto. exfalso.
  destruct (build_ok _ _ H) as [_ [_ K]]. rewrite get_edge_adj, (K _ N) in E. discriminate.
Qed.
Lemma build_positive vs g : build vs = Ok g -> positive g.
Proof.
  intros H u v e E. pose proof (build_source _ _ _ _ _ H E) as I.
  destruct (C09_best_relationship_kept vs g u v e H I E) as [_ [W _]]. rewrite W. destruct (e_rel e); unfold weight_of; simpl; lia.
Qed.
Lemma build_no_loops vs g : build vs = Ok g -> no_self_reference vs -> no_loops g.
Proof.
  intros H N u. destruct (get_edge g u u) as [e|] eqn:E; auto. exfalso.
  pose proof (build_source _ _ _ _ _ H E) as I.
  destruct (proj1 (C09_exactly_the_permitted_joins vs g u u H I)) as [[r [i [j [[K _] _]]]]|[r [s [pre [post [K _]]]]]].
  { exists e; auto. }
  { congruence. }
  assert (D : In (u, u, (r, s)) (all_declarations vs)) by (rewrite K; apply in_or_app; right; left; auto).
  unfold all_declarations in D. apply in_flat_map in D. destruct D as [v [V D]].
  apply in_flat_map in D. destruct D as [i [J D]]. unfold declarations in D.
  destruct (ji_type i) eqn:T; try (destruct D; fail).
  apply (N v i V J T). destruct D as [D|D]; [inversion D; congruence|].
  destruct (reversed (ji_rel i)); try (destruct D; fail); destruct D as [D|D]; try (destruct D; fail); inversion D; congruence.
Qed.
Lemma build_nodup vs g : build vs = Ok g -> NoDup (map fst g).
Proof. intros H. destruct (build_wf _ _ H) as [A _]. exact A. Qed.

(** C13: for a query over at least one view that succeeds, the joins start at the base view, each
    joins a new view to one already present along an edge of the join graph, and all required views
    are present at the end. *)
Theorem C13_from_clause_well_formed vs g comp topo sp req js :
  build vs = Ok g -> no_self_reference vs ->
  topological_contract topo -> shortest_path_contract g sp ->
  req <> [] -> NoDup req ->
  joins g comp topo sp req = Ok js ->
  exists base final, base_view_name req js = Ok base /\ joins_from g [base] js final /\ incl req final.
Proof.
  intros B NS T S RN NR J. unfold joins in J. apply bind_ok in J. destruct J as [pairs [D O]].
  destruct req as [|a [|b r]]; [congruence| |].
  - simpl in D. inversion D; subst. inversion O; subst. exists a, [a]. split; auto. split; [constructor|]. intros x X; auto.
  - destruct (determine_ok g comp topo sp (build_nodup _ _ B) (build_positive _ _ B) T S (a :: b :: r) (build_no_loops _ _ B NS) NR)
      as [[ps [D' [TR C]]]|D']; [simpl; lia| |congruence].
    assert (ps = pairs) by congruence. subst ps.
    destruct (tree_joins _ _ _ TR C) as [j [js' [final [O' [JF I]]]]].
    assert (js = j :: js') by congruence. subst js.
    exists (jn_base j), final. split; auto.
Qed.
Print Assumptions C13_from_clause_well_formed.

(** C13: the only way to fail is JoinError. *)
Theorem C13_only_join_error vs g comp topo sp req x :
  build vs = Ok g -> no_self_reference vs ->
  topological_contract topo -> shortest_path_contract g sp ->
  req <> [] -> NoDup req ->
  joins g comp topo sp req = Err x -> x = JoinError.
Proof.
  intros B NS T S RN NR J. unfold joins in J.
  destruct req as [|a [|b r]]; [congruence|discriminate|].
  destruct (determine_ok g comp topo sp (build_nodup _ _ B) (build_positive _ _ B) T S (a :: b :: r) (build_no_loops _ _ B NS) NR)
    as [[ps [D' [TR C]]]|D']; [simpl; lia| |].
  - rewrite D' in J. cbn [bind] in J. destruct (tree_joins _ _ _ TR C) as [j [js' [final [O' _]]]]. congruence.
  - rewrite D' in J. simpl in J. congruence.
Qed.
Print Assumptions C13_only_join_error.

(** no view twice: a consequence worth having in its own words *)
Lemma joins_from_nodup g : forall js present final,
  joins_from g present js final -> NoDup present -> NoDup final /\ Permutation final (map jn_view js ++ present).
Proof.
  induction js as [|j js IH]; intros present final H ND; inversion H as [|? ? ? ? H1 H2 H3 H4]; subst; [auto|].
  destruct (IH _ _ H4) as [A B]; [constructor; auto|]. split; auto.
  rewrite B. simpl. symmetry. apply Permutation_middle.
Qed.
Theorem C13_no_view_joined_twice vs g comp topo sp req js :
  build vs = Ok g -> no_self_reference vs ->
  topological_contract topo -> shortest_path_contract g sp ->
  req <> [] -> NoDup req ->
  joins g comp topo sp req = Ok js ->
  exists base, base_view_name req js = Ok base /\ NoDup (base :: map jn_view js).
Proof.
  intros B NS T S RN NR J.
  destruct (C13_from_clause_well_formed vs g comp topo sp req js B NS T S RN NR J) as [base [final [A [JF _]]]].
  exists base. split; auto. destruct (joins_from_nodup _ _ _ _ JF) as [C D].
  { constructor; [intros []|constructor]. }
  eapply Permutation_NoDup; [|exact C]. rewrite D. rewrite Permutation_app_comm. reflexivity.
Qed.
Print Assumptions C13_no_view_joined_twice.

(** Concrete case: three views joined through a fourth, by the greedy search *)
Definition star_vs : list gview :=
  [ GView "hub" [simple_id "a_id" TForeign; simple_id "b_id" TForeign; simple_id "c_id" TForeign];
    GView "a" [simple_id "a_id" TPrimary]; GView "b" [simple_id "b_id" TPrimary]; GView "c" [simple_id "c_id" TPrimary] ].
Definition star : graph := match build star_vs with Ok g => g | Err _ => [] end.
Example C13_case :
  build star_vs = Ok star /\ no_self_reference star_vs /\
  topological_contract nx_topo /\ shortest_path_contract star (nx_sp star) /\ NoDup ["c"; "a"; "b"] /\
  exists js, joins star (composite_keys star_vs) nx_topo (nx_sp star) ["c"; "a"; "b"] = Ok js /\
             map (fun j => (jn_base j, jn_view j)) js = [("hub", "a"); ("hub", "b"); ("hub", "c")].
Proof.
  split; [reflexivity|]. split.
  { intros v i V I T. simpl in V. destruct V as [<-|[<-|[<-|[<-|[]]]]]; simpl in I;
      repeat (destruct I as [<-|I]; [discriminate|]); destruct I. }
  split; [apply nx_topo_contract|]. split; [apply nx_sp_contract|]. split.
  { repeat constructor; simpl; intuition discriminate. }
  eexists. split; [vm_compute; reflexivity|]. reflexivity.
Qed.

(** Finding: an explicit join from a view to itself (not refused anywhere) makes the view appear twice
    under the same name. *)
Definition loop_vs : list gview :=
  [ GView "a" [simple_id "b_id" TForeign; simple_id "c_id" TForeign;
               JIdent "self" TJoin [] [] "a" O2O "${a.id}=${a.id}" None None];
    GView "b" [simple_id "b_id" TPrimary]; GView "c" [simple_id "c_id" TPrimary] ].
Theorem C13_self_reference_joins_a_view_to_itself_refuted :
  exists vs g req js, build vs = Ok g /\ NoDup req /\
    joins g (composite_keys vs) nx_topo (nx_sp g) req = Ok js /\
    base_view_name req js = Ok "a" /\ In "a" (map jn_view js).
Proof.
  exists loop_vs. destruct (build loop_vs) as [g|] eqn:E; [|discriminate]. exists g, ["a"; "b"; "c"].
  vm_compute in E. inversion E; subst g. eexists. split; [reflexivity|]. split.
  { repeat constructor; simpl; intuition discriminate. }
  split; [vm_compute; reflexivity|]. split; [reflexivity|]. left; reflexivity.
Qed.
Print Assumptions C13_self_reference_joins_a_view_to_itself_refuted.

(** ** C14 *)

Definition joined_by (g : graph) (a b : string) : Prop := exists rest w, walk g a rest b w.
Lemma two_edges_topo topo a b es l : topological_contract topo -> In (a, b) es -> In (b, a) es -> topo es <> Some l.
Proof.
  intros T A B E. destruct (proj1 T _ _ E) as [P R].
  assert (A' : In (a, b) l) by (eapply Permutation_in; [symmetry; exact P|auto]).
  assert (B' : In (b, a) l) by (eapply Permutation_in; [symmetry; exact P|auto]).
  apply in_split in A'. destruct A' as [pre [post ->]].
  apply in_app_or in B'. destruct B' as [B'|B'].
  - apply in_split in B'. destruct B' as [p1 [p2 ->]].
    apply (R p1 (b, a) (p2 ++ (a, b) :: post)) with (e' := (a, b)); auto; [rewrite <- app_assoc; auto|].
    right. apply in_or_app. right. left. auto.
  - apply (R pre (a, b) post eq_refl (b, a)); auto.
Qed.

(** C14: for two views without a join in exactly one direction, the joins are a cheapest path
    between them over both directions. *)
Theorem C14_cheapest_path vs g comp topo sp a b :
  build vs = Ok g -> no_self_reference vs ->
  topological_contract topo -> shortest_path_contract g sp -> a <> b ->
  (has_edge g a b <-> has_edge g b a) ->
  joined_by g a b \/ joined_by g b a ->
  exists s t rest w,
    ((s = a /\ t = b) \/ (s = b /\ t = a)) /\ walk g s rest t w /\
    determine_join_order g comp topo sp [a; b] = Ok (combine (s :: rest) rest) /\
    (forall rest' w', walk g a rest' b w' \/ walk g b rest' a w' -> w <= w').
Proof.
  intros B NS T S NE SYM J.
  pose proof (build_nodup _ _ B) as ND. pose proof (build_positive _ _ B) as PO. pose proof (build_no_loops _ _ B NS) as NL.
  assert (F : determine_join_order g comp topo sp [a; b] = fallback g comp sp [a; b]).
  { unfold determine_join_order. destruct (topo (sub_edges g [a; b])) as [raw|] eqn:E; auto.
    destruct (sub_edges g [a; b]) as [|e es] eqn:Q.
    - destruct (proj1 T _ _ E) as [P _]. symmetry in P. apply Permutation_nil in P. subst raw. reflexivity.
    - exfalso. assert (K : has_edge g a b).
      { destruct (two_subgraph g ND a b NL NE e) as [->| ->].
        - rewrite Q. left; auto.
        - apply (sub_edges_In g [a; b] a b ND). rewrite Q. left; auto.
        - apply SYM. apply (sub_edges_In g [a; b] b a ND). rewrite Q. left; auto. }
      assert (K' := proj1 SYM K).
      eapply (two_edges_topo topo a b (e :: es) raw); eauto; rewrite <- Q; apply sub_edges_In; simpl; auto. }
  rewrite F. unfold fallback.
  destruct (shortest_between g sp (both_ways a b)) as [p|] eqn:P.
  - destruct (shortest_between_Some g sp S _ _ P) as [s [t [rest [w [I [_ [-> [W M]]]]]]]].
    exists s, t, rest, w. split; [|split; [exact W|split; [reflexivity|]]].
    + destruct I as [I|[I|[]]]; inversion I; auto.
    + intros rest' w' [X|X]; eapply M; try exact X; simpl; auto.
  - exfalso. destruct J as [[r [w W]]|[r [w W]]]; revert W; eapply (shortest_between_None g sp S); eauto; simpl; auto.
Qed.
Print Assumptions C14_cheapest_path.

(** C14: with a join in exactly one direction, that join is used. *)
Theorem C14_single_direct_join vs g comp topo sp a b u v :
  build vs = Ok g -> no_self_reference vs ->
  topological_contract topo -> a <> b ->
  (u = a /\ v = b) \/ (u = b /\ v = a) -> has_edge g u v -> ~ has_edge g v u ->
  determine_join_order g comp topo sp [a; b] = Ok [(u, v)].
Proof.
  intros B NS T NE UV E NE'.
  pose proof (build_nodup _ _ B) as ND. pose proof (build_no_loops _ _ B NS) as NL.
  assert (UVN : u <> v) by (destruct UV as [[-> ->]|[-> ->]]; auto).
  assert (ALL : forall e, In e (sub_edges g [a; b]) -> e = (u, v)).
  { intros e I. assert (K : e = (u, v) \/ e = (v, u)).
    { destruct (two_subgraph g ND a b NL NE e I); destruct UV as [[-> ->]|[-> ->]]; auto. }
    destruct K as [K|K]; auto. subst e. exfalso. apply NE'. apply (sub_edges_In g [a; b] v u ND). auto. }
  assert (ONE : In (u, v) (sub_edges g [a; b])).
  { apply sub_edges_In; auto. destruct UV as [[-> ->]|[-> ->]]; simpl; auto. }
  assert (CL : forall raw prev, (forall e, In e raw -> e = (u, v)) -> In (u, v) prev -> clean_aux prev raw = []).
  { induction raw as [|e raw IH]; intros prev A I; auto. cbn [clean_aux].
    rewrite (A e (or_introl eq_refl)).
    assert (D : existsb (fun q => String.eqb (snd (u, v)) (snd q)) prev = true).
    { apply existsb_exists. exists (u, v). split; auto. apply String.eqb_refl. }
    rewrite D. cbn [negb andb]. apply IH.
    - intros x X. apply A. right; auto.
    - apply in_or_app; auto. }
  unfold determine_join_order. destruct (topo (sub_edges g [a; b])) as [raw|] eqn:Q.
  - destruct (proj1 T _ _ Q) as [P R].
    destruct raw as [|e raw].
    { apply Permutation_nil in P. rewrite P in ONE. destruct ONE. }
    assert (AR : forall x, In x (e :: raw) -> x = (u, v)) by (intros x X; apply ALL; eapply Permutation_in; eauto).
    rewrite clean_head, (AR e (or_introl eq_refl)), CL.
    + unfold validate_join_path. cbn [validate_aux bind List.length Nat.ltb Nat.leb].
      assert (V : existsb (fun v0 => negb (mem v0 [u; v])) [a; b] = false).
      { destruct UV as [[-> ->]|[-> ->]]; simpl; rewrite !String.eqb_refl; repeat rewrite orb_true_r; reflexivity. }
      rewrite V. reflexivity.
    + intros x X. apply AR. right; auto.
    + left; auto.
  - exfalso. destruct (proj2 T _ Q) as [s [SN [SI SE]]]. destruct s as [|e s]; [congruence|].
    destruct (SE e (or_introl eq_refl)) as [e' [I' K]].
    rewrite (ALL e (SI _ (or_introl eq_refl))), (ALL e' (SI _ I')) in K. simpl in K. congruence.
Qed.
Print Assumptions C14_single_direct_join.

(** C14: JoinError means neither view can be reached from the other. *)
Theorem C14_join_error_only_when_unreachable vs g comp topo sp a b :
  build vs = Ok g -> no_self_reference vs ->
  topological_contract topo -> shortest_path_contract g sp -> a <> b ->
  joins g comp topo sp [a; b] = Err JoinError -> ~ joined_by g a b /\ ~ joined_by g b a.
Proof.
  intros B NS T S NE J.
  assert (NJ : ~ (joined_by g a b \/ joined_by g b a)); [|tauto].
  intros K. 
  pose proof (build_nodup _ _ B) as ND.
  assert (D : exists ps, determine_join_order g comp topo sp [a; b] = Ok ps).
  { assert (EM : forall u v, has_edge g u v \/ ~ has_edge g u v).
    { intros u v. unfold has_edge. destruct (get_edge g u v); [eauto|]. right. intros [e E]; discriminate. }
    destruct (EM a b) as [X|X]; destruct (EM b a) as [Y|Y].
    - destruct (C14_cheapest_path vs g comp topo sp a b B NS T S NE) as [s [t [r [w [_ [_ [D _]]]]]]]; eauto; tauto.
    - exists [(a, b)]. eapply C14_single_direct_join; eauto.
    - exists [(b, a)]. eapply C14_single_direct_join; eauto.
    - destruct (C14_cheapest_path vs g comp topo sp a b B NS T S NE) as [s [t [r [w [_ [_ [D _]]]]]]]; eauto; tauto. }
  destruct D as [ps D].
  destruct (determine_ok g comp topo sp ND (build_positive _ _ B) T S [a; b] (build_no_loops _ _ B NS))
    as [[ps' [D' [TR C]]]|D'].
  { repeat constructor; simpl; intuition. }
  { simpl; lia. }
  - unfold joins in J. rewrite D' in J. cbn [bind] in J. destruct (tree_joins _ _ _ TR C) as [j [js' [final [O' _]]]]. congruence.
  - congruence.
Qed.
Print Assumptions C14_join_error_only_when_unreachable.

(** Concrete cases: mutually joinable views (fan-out allowed), and a path of two joins *)
Example C14_case_both_ways :
  has_edge ex_g "orders" "customers" /\ has_edge ex_g "customers" "orders" /\
  determine_join_order ex_g [] nx_topo (nx_sp ex_g) ["customers"; "orders"] = Ok [("orders", "customers")].
Proof. split; [eexists; reflexivity|]. split; [eexists; reflexivity|]. vm_compute. reflexivity. Qed.

Definition chain_vs : list gview :=
  [ GView "lines" [simple_id "order_id" TForeign];
    GView "orders" [simple_id "order_id" TPrimary; simple_id "customer_id" TForeign];
    GView "customers" [simple_id "customer_id" TPrimary] ].
Definition chain : graph := match build chain_vs with Ok g => g | Err _ => [] end.
Example C14_case_chain :
  build chain_vs = Ok chain /\ no_self_reference chain_vs /\
  ~ has_edge chain "lines" "customers" /\ ~ has_edge chain "customers" "lines" /\ joined_by chain "lines" "customers" /\
  determine_join_order chain [] nx_topo (nx_sp chain) ["customers"; "lines"] = Ok [("lines", "orders"); ("orders", "customers")].
Proof.
  split; [reflexivity|]. split.
  { intros v i V I T. simpl in V. destruct V as [<-|[<-|[<-|[]]]]; simpl in I;
      repeat (destruct I as [<-|I]; [discriminate|]); destruct I. }
  split; [intros [e E]; discriminate|]. split; [intros [e E]; discriminate|]. split.
  { do 2 eexists. eapply (walk_cons chain "lines" "orders" ["customers"]); [reflexivity|].
    eapply walk_cons; [reflexivity|]. constructor. }
  vm_compute. reflexivity.
Qed.

(** Finding: a direct join in one direction is used even when a cheaper path exists (a many_to_many
    join is preferred to two one_to_one joins). *)
Definition detour_vs : list gview :=
  [ GView "a" [simple_id "ac" TPrimary; JIdent "ab" TForeign [] ["b"] "" M2O "" None None];
    GView "b" [simple_id "ab" TForeign; simple_id "cb" TPrimary];
    GView "c" [simple_id "ac" TPrimary; simple_id "cb" TPrimary] ].
Definition detour : graph := match build detour_vs with Ok g => g | Err _ => [] end.
Theorem C14_direct_join_need_not_be_cheapest_refuted :
  build detour_vs = Ok detour /\
  determine_join_order detour [] nx_topo (nx_sp detour) ["a"; "b"] = Ok [("a", "b")] /\
  walk detour "a" ["b"] "b" 4 /\ walk detour "a" ["c"; "b"] "b" 2.
Proof.
  split; [reflexivity|]. split; [vm_compute; reflexivity|]. split.
  - change 4 with (4 + 0). refine (walk_cons detour "a" "b" [] "b" 0 (Edge M2M _ _ 4) _ (walk_nil _ _)). reflexivity.
  - change 2 with (1 + (1 + 0)).
    refine (walk_cons detour "a" "c" ["b"] "b" (1 + 0) (Edge O2O _ _ 1) _ _); [reflexivity|].
    refine (walk_cons detour "c" "b" [] "b" 0 (Edge O2O _ _ 1) _ (walk_nil _ _)). reflexivity.
Qed.
Print Assumptions C14_direct_join_need_not_be_cheapest_refuted.

(** Finding: four views forming two separate joins give JoinError although a fifth view reaches them
    all; the error of the path check is not caught by the fallback. *)
Definition pairs_vs : list gview :=
  [ GView "hub" [simple_id "a_id" TForeign; simple_id "c_id" TForeign];
    GView "a" [simple_id "a_id" TPrimary; simple_id "b_id" TForeign]; GView "b" [simple_id "b_id" TPrimary];
    GView "c" [simple_id "c_id" TPrimary; simple_id "d_id" TForeign]; GView "d" [simple_id "d_id" TPrimary] ].
Definition pairs_g : graph := match build pairs_vs with Ok g => g | Err _ => [] end.
Theorem C14_two_separate_joins_fail_although_joinable_refuted :
  build pairs_vs = Ok pairs_g /\ no_self_reference pairs_vs /\
  (forall topo sp comp, topological_contract topo ->
     joins pairs_g comp topo sp ["a"; "b"; "c"; "d"] = Err JoinError) /\
  joined_by pairs_g "hub" "a" /\ joined_by pairs_g "hub" "b" /\ joined_by pairs_g "hub" "c" /\ joined_by pairs_g "hub" "d" /\
  exists js, joins pairs_g [] nx_topo (nx_sp pairs_g) ["hub"; "a"; "b"; "c"; "d"] = Ok js.
Proof.
  split; [reflexivity|]. split.
  { intros v i V I T. simpl in V. destruct V as [<-|[<-|[<-|[<-|[<-|[]]]]]]; simpl in I;
      repeat (destruct I as [<-|I]; [discriminate|]); destruct I. }
  split.
  { intros topo sp comp T. unfold joins, determine_join_order.
    change (sub_edges pairs_g ["a"; "b"; "c"; "d"]) with [("a", "b"); ("c", "d")].
    destruct (topo [("a", "b"); ("c", "d")]) as [l|] eqn:E.
    - destruct (proj1 T _ _ E) as [P _]. apply Permutation_sym, Permutation_length_2_inv in P.
      destruct P as [->| ->]; reflexivity.
    - exfalso. destruct (proj2 T _ E) as [s [SN [SI SE]]]. destruct s as [|e s]; [congruence|].
      destruct (SE e (or_introl eq_refl)) as [e' [I' K]].
      destruct (SI _ (or_introl eq_refl)) as [<-|[<-|[]]]; destruct (SI _ I') as [<-|[<-|[]]]; discriminate. }
  assert (HA : forall x y e rest w, get_edge pairs_g x y = Some e -> walk pairs_g y rest y w -> joined_by pairs_g x y).
  { intros x y e rest w E W. exists (y :: rest), (e_weight e + w). econstructor; eauto. }
  split; [eapply HA; [reflexivity|constructor]|].
  split.
  { do 2 eexists. eapply (walk_cons pairs_g "hub" "a" ["b"]); [reflexivity|]. eapply walk_cons; [reflexivity|]. constructor. }
  split; [eapply HA; [reflexivity|constructor]|].
  split.
  { do 2 eexists. eapply (walk_cons pairs_g "hub" "c" ["d"]); [reflexivity|]. eapply walk_cons; [reflexivity|]. constructor. }
  eexists. vm_compute. reflexivity.
Qed.
Print Assumptions C14_two_separate_joins_fail_although_joinable_refuted.

(** ** C47: the order in which the required views are enumerated (a Python set) does not matter, for
    any number of views other than two; for two views only ties of weight and text matter. *)
Lemma mem_perm l m x : Permutation l m -> mem x l = mem x m.
Proof.
  intros P. destruct (mem x l) eqn:A; destruct (mem x m) eqn:B; auto; exfalso.
  - apply mem_In in A. apply mem_false in B. apply B. eapply Permutation_in; eauto.
  - apply mem_In in B. apply mem_false in A. apply A. eapply Permutation_in; [symmetry|]; eauto.
Qed.
Lemma existsb_perm {A} (f : A -> bool) l m : Permutation l m -> existsb f l = existsb f m.
Proof.
  induction 1; simpl; auto; try congruence. rewrite !orb_assoc, (orb_comm (f y)). auto.
Qed.
Lemma filter_perm {A} (f : A -> bool) l m : Permutation l m -> Permutation (filter f l) (filter f m).
Proof.
  induction 1; simpl; auto.
  - destruct (f x); auto.
  - destruct (f x), (f y); auto. constructor.
  - etransitivity; eauto.
Qed.

Lemma add_missing_perm g sp f m m' pairs n : Permutation m m' -> add_missing g sp f m pairs n = add_missing g sp f m' pairs n.
Proof.
  intros P. destruct f; auto. cbn [add_missing]. rewrite (sort_str_perm_eq _ _ P), (Permutation_length P). reflexivity.
Qed.
Lemma greedy_build_perm g sp e l m : Permutation l m -> greedy_build_join g sp e l = greedy_build_join g sp e m.
Proof.
  intros P. unfold greedy_build_join. set (joined := flat_map _ _).
  pose proof (filter_perm (fun v => negb (mem v joined)) _ _ P) as Q.
  destruct (filter _ l) as [|x r] eqn:X; destruct (filter _ m) as [|y r'] eqn:Y; auto.
  - apply Permutation_nil in Q. discriminate.
  - symmetry in Q. apply Permutation_nil in Q. discriminate.
  - rewrite (add_missing_perm g sp _ _ _ _ _ Q), (Permutation_length Q). reflexivity.
Qed.
Lemma first_greedy_perm g sp es l m : Permutation l m -> first_greedy g sp es l = first_greedy g sp es m.
Proof.
  intros P. induction es as [|e r IH]; simpl; auto. rewrite (greedy_build_perm g sp e l m P), IH. reflexivity.
Qed.
Lemma greedy_perm g comp sp l m : Permutation l m -> greedy g comp sp l = greedy g comp sp m.
Proof.
  intros P. unfold greedy.
  assert (B : bridge_views comp l = bridge_views comp m).
  { unfold bridge_views. apply flat_map_ext. intros kv. rewrite (existsb_perm _ _ _ P). reflexivity. }
  assert (S : sub_edges g l = sub_edges g m).
  { unfold sub_edges. apply filter_ext. intros e. rewrite !(mem_perm _ _ _ P). reflexivity. }
  rewrite B, S.
  rewrite (filter_ext (fun e => mem (fst e) l || mem (snd e) l) (fun e => mem (fst e) m || mem (snd e) m)).
  - apply first_greedy_perm; auto.
  - intros e. rewrite !(mem_perm _ _ _ P). reflexivity.
Qed.

Theorem C47_join_plan_independent_of_view_order g comp topo sp l m :
  Permutation l m -> List.length l <> 2 ->
  joins g comp topo sp l = joins g comp topo sp m.
Proof.
  intros P L. assert (L' : List.length m <> 2) by (rewrite <- (Permutation_length P); auto).
  unfold joins. f_equal. unfold determine_join_order.
  assert (S : sub_edges g l = sub_edges g m).
  { unfold sub_edges. apply filter_ext. intros e. rewrite !(mem_perm _ _ _ P). reflexivity. }
  assert (F : fallback g comp sp l = fallback g comp sp m).
  { assert (A : fallback g comp sp l = greedy g comp sp l).
    { destruct l as [|? [|? [|? ?]]]; auto. simpl in L; congruence. }
    assert (B : fallback g comp sp m = greedy g comp sp m).
    { destruct m as [|? [|? [|? ?]]]; auto. simpl in L'; congruence. }
    rewrite A, B. apply greedy_perm; auto. }
  assert (V : forall ps, validate_join_path ps l = validate_join_path ps m).
  { intros ps. unfold validate_join_path. destruct ps as [|[a b] r]; cbn [bind]; [rewrite (existsb_perm _ _ _ P); auto|].
    destruct (validate_aux r [a; b]); cbn [bind]; auto. rewrite (existsb_perm _ _ _ P). auto. }
  pose proof (Permutation_length P) as PL.
  destruct l as [|x [|y r]]; destruct m as [|x' [|y' r']]; simpl in PL; try discriminate; auto.
  rewrite S, F. destruct (topo (sub_edges g (x' :: y' :: r'))); auto. rewrite V. reflexivity.
Qed.
Print Assumptions C47_join_plan_independent_of_view_order.

Lemma isort_two {A} (leb : A -> A -> bool) x y : isort leb [x; y] = if leb x y then [x; y] else [y; x].
Proof. unfold isort. simpl. destruct (leb x y); reflexivity. Qed.
(** For two views the two directions may tie in weight; then the concatenated view names decide. *)
Theorem C47_two_views g comp topo sp a b :
  (forall p q, sp a b = Some p -> sp b a = Some q -> path_weight g p = path_weight g q ->
     join_with "" p = join_with "" q -> p = q) ->
  joins g comp topo sp [a; b] = joins g comp topo sp [b; a].
Proof.
  intros T. assert (P : Permutation [a; b] [b; a]) by constructor.
  assert (F : fallback g comp sp [a; b] = fallback g comp sp [b; a]).
  { unfold fallback. rewrite (greedy_perm g comp sp _ _ P).
    assert (S : shortest_between g sp (both_ways a b) = shortest_between g sp (both_ways b a)); [|rewrite S; auto].
    unfold shortest_between, found_paths, both_ways. cbn [flat_map fst snd].
    destruct (sp a b) as [p|] eqn:A; destruct (sp b a) as [q|] eqn:B; auto.
    specialize (T p q eq_refl eq_refl). cbn [app]. rewrite !isort_two.
    unfold path_leb. cbn [fst snd].
    destruct (Nat.ltb_spec (path_weight g p) (path_weight g q)); destruct (Nat.ltb_spec (path_weight g q) (path_weight g p)); try lia;
      cbn [orb fst].
    - destruct (Nat.eqb_spec (path_weight g q) (path_weight g p)); try lia. auto.
    - destruct (Nat.eqb_spec (path_weight g p) (path_weight g q)); try lia. auto.
    - assert (E : path_weight g p = path_weight g q) by lia. rewrite E, Nat.eqb_refl. cbn [andb].
      destruct (String.leb (join_with "" p) (join_with "" q)) eqn:X; destruct (String.leb (join_with "" q) (join_with "" p)) eqn:Y; auto.
      + rewrite (T E); auto. apply String.leb_antisym; auto.
      + destruct (String.leb_total (join_with "" p) (join_with "" q)); congruence. }
  unfold joins. f_equal. unfold determine_join_order.
  assert (S : sub_edges g [a; b] = sub_edges g [b; a]).
  { unfold sub_edges. apply filter_ext. intros e. rewrite !(mem_perm _ _ _ P). reflexivity. }
  rewrite S, F. destruct (topo (sub_edges g [b; a])); auto.
  unfold validate_join_path. cbn [List.length Nat.ltb Nat.leb].
  destruct (clean_view_pairs l) as [|[u v] r]; cbn [bind]; [reflexivity|].
  destruct (validate_aux r [u; v]); cbn [bind]; auto. rewrite (existsb_perm _ _ _ P). reflexivity.
Qed.
Print Assumptions C47_two_views.

(** Finding: such a tie exists, so which view is the base view depends on the iteration order of a
    set of strings, which Python randomises between runs. *)
Definition tie_vs : list gview :=
  [ GView "x" [simple_id "k" TPrimary]; GView "xx" [simple_id "k" TPrimary] ].
Definition tie_g : graph := match build tie_vs with Ok g => g | Err _ => [] end.
Theorem C47_base_view_may_depend_on_set_order_refuted :
  build tie_vs = Ok tie_g /\
  exists j1 j2, joins tie_g [] nx_topo (nx_sp tie_g) ["x"; "xx"] = Ok [j1] /\
                joins tie_g [] nx_topo (nx_sp tie_g) ["xx"; "x"] = Ok [j2] /\ jn_base j1 = "x" /\ jn_base j2 = "xx".
Proof. split; [reflexivity|]. do 2 eexists. split; [vm_compute; reflexivity|]. split; [vm_compute; reflexivity|]. split; reflexivity. Qed.
Print Assumptions C47_base_view_may_depend_on_set_order_refuted.

Example C47_case : Permutation ["c"; "a"; "b"] ["a"; "b"; "c"] /\ List.length ["c"; "a"; "b"] <> 2 /\
  exists js, joins star [] nx_topo (nx_sp star) ["c"; "a"; "b"] = Ok js /\ js <> [].
Proof.
  split; [apply Permutation_sym, Permutation_cons_append || (apply perm_trans with ["a"; "c"; "b"]; [apply perm_swap|apply perm_skip, perm_swap])|].
  split; [discriminate|]. eexists. split; [vm_compute; reflexivity|discriminate].
Qed.
