(** C09, C11, C12: the join graph. *)
From Verif Require Import PyBase PyStr PySort PyRefs PyGraph JoinGraph_Model JoinGraph_Spec JoinGraph_Proofs JoinGraph_Scc.
Local Open Scope string_scope.
Local Open Scope list_scope.
Local Open Scope nat_scope.

Lemma rank_preference r s : rank r <= rank s <-> preference r <= preference s.
Proof. destruct r, s; simpl; lia. Qed.

Lemma identifier_to_join_spec i a j b e :
  identifier_to_join i a j b = Ok e <->
  related (ji_type i) (ji_type j) (e_rel e) /\ e_type e = "left_outer" /\
  e_sql_on e = (identifier_join_clause i a ++ "=" ++ identifier_join_clause j b)%string /\
  e_weight e = weight_of (e_rel e).
Proof.
  unfold identifier_to_join. rewrite bind_ok. split.
  - intros (r & Hr & H). injection H as <-. simpl. apply derive_spec in Hr. split; [exact Hr|].
    destruct r; repeat split.
  - intros (H1 & H2 & H3 & H4). exists (e_rel e). split; [apply derive_spec; exact H1|].
    destruct e as [r t s w]; simpl in *. subst t s w. destruct r; reflexivity.
Qed.

(** C09: between two views of the project there is a join exactly when one is declared explicitly or
    the identifiers permit one. *)
Theorem C09_exactly_the_permitted_joins vs g a b :
  build vs = Ok g -> In a (map gv_name vs) ->
  (has_edge g a b <->
   (exists r i j, identifier_join vs a b r i j) \/ (exists r s, explicit_join vs a b r s)).
Proof.
  intros H Ha. apply in_map_iff in Ha. destruct Ha as (v & <- & Hv). unfold has_edge.
  pose proof (proj1 (build_ok _ _ H)) as HN. rewrite (get_edge_build vs g v b H Hv).
  set (es := offers (cands vs v) b). set (o := assoc b (adj_of (reference_map vs) (gv_name v))).
  split.
  - intros (e & He). apply better_fold_Some in He. destruct He as [[He|He] _].
    + right. apply reference_map_spec in He. destruct He as (r & s & He & _). exists r, s. exact He.
    + left. apply (offers_spec vs v b e HN Hv) in He. destruct He as (i & j & He & _). exists (e_rel e), i, j. exact He.
  - intros K. destruct (fold_left better es o) as [e|] eqn:E; [exists e; reflexivity|]. exfalso.
    apply better_fold_None in E. destruct E as [E1 E2]. destruct K as [(r & i & j & K)|(r & s & K)].
    + pose proof K as (_ & Hr & _). apply derive_spec in Hr.
      assert (He : In (Edge r "left_outer" (identifier_join_clause i (gv_name v) ++ "=" ++ identifier_join_clause j b)%string (edge_weight r)) es).
      { apply offers_spec; [exact HN|exact Hv|]. exists i, j. simpl. split; [exact K|].
        unfold identifier_to_join. rewrite Hr. reflexivity. }
      rewrite E2 in He. destruct He.
    + assert (He : o = Some (explicit_edge r s)) by (apply reference_map_spec; exists r, s; auto). congruence.
Qed.
Print Assumptions C09_exactly_the_permitted_joins.

(** C09: the join kept for a pair has the best relationship on offer, carries the matching condition
    and weight, and an explicit join is displaced only by a strictly better identifier join. *)
Theorem C09_best_relationship_kept vs g a b e :
  build vs = Ok g -> In a (map gv_name vs) -> get_edge g a b = Some e ->
  (* it is one of the joins on offer *)
  ((exists i j, identifier_join vs a b (e_rel e) i j /\ e_type e = "left_outer" /\
      e_sql_on e = (identifier_join_clause i a ++ "=" ++ identifier_join_clause j b)%string) \/
   (explicit_join vs a b (e_rel e) (e_sql_on e) /\ e_type e = "join")) /\
  e_weight e = weight_of (e_rel e) /\
  (* none is better *)
  (forall r i j, identifier_join vs a b r i j -> rank (e_rel e) <= rank r) /\
  (forall r s, explicit_join vs a b r s -> rank (e_rel e) <= rank r) /\
  (* ties go to the explicit join *)
  (forall r s, explicit_join vs a b r s ->
     (forall r' i j, identifier_join vs a b r' i j -> rank r <= rank r') ->
     e_rel e = r /\ e_sql_on e = s).
Proof.
  intros H Ha He. apply in_map_iff in Ha. destruct Ha as (v & <- & Hv).
  pose proof (proj1 (build_ok _ _ H)) as HN. rewrite (get_edge_build vs g v b H Hv) in He.
  apply better_fold_Some in He. destruct He as (B1 & B2 & B3).
  assert (Off : forall r i j, identifier_join vs (gv_name v) b r i j ->
            exists e', In e' (offers (cands vs v) b) /\ e_rel e' = r).
  { intros r i j K. pose proof K as (_ & Hr & _). apply derive_spec in Hr.
    exists (Edge r "left_outer" (identifier_join_clause i (gv_name v) ++ "=" ++ identifier_join_clause j b)%string (edge_weight r)).
    split; [|reflexivity]. apply offers_spec; [exact HN|exact Hv|]. exists i, j. simpl. split; [exact K|].
    unfold identifier_to_join. rewrite Hr. reflexivity. }
  assert (Exp : forall r s, explicit_join vs (gv_name v) b r s ->
            assoc b (adj_of (reference_map vs) (gv_name v)) = Some (explicit_edge r s)).
  { intros r s K. apply reference_map_spec. exists r, s. auto. }
  split; [|split; [|split; [|split]]].
  - destruct B1 as [B1|B1].
    + right. apply reference_map_spec in B1. destruct B1 as (r & s & K & ->). simpl. auto.
    + left. apply (offers_spec vs v b e HN Hv) in B1. destruct B1 as (i & j & K & K2).
      apply identifier_to_join_spec in K2. destruct K2 as (_ & K2 & K3 & _). exists i, j. auto.
  - destruct B1 as [B1|B1].
    + apply reference_map_spec in B1. destruct B1 as (r & s & _ & ->). destruct r; reflexivity.
    + apply (offers_spec vs v b e HN Hv) in B1. destruct B1 as (i & j & _ & K2).
      apply identifier_to_join_spec in K2. apply K2.
  - intros r i j K. destruct (Off r i j K) as (e' & He' & <-). apply rank_preference. apply B2. right; exact He'.
  - intros r s K. apply rank_preference. exact (B2 _ (or_introl (Exp r s K))).
  - intros r s K Hmin. assert (E : e = explicit_edge r s).
    { apply B3; [exact (Exp r s K)|]. intros e' He'. apply rank_preference. simpl.
      apply (offers_spec vs v b e' HN Hv) in He'. destruct He' as (i & j & K' & _). eapply Hmin; eauto. }
    subst e. simpl. auto.
Qed.
Print Assumptions C09_best_relationship_kept.

(** C09: the graph is built exactly when view names are distinct and every pair of identifiers that
    meet has types a relationship can be derived from; with distinct names the only error is QueryError.*)
Theorem C09_build_succeeds_iff vs :
  (exists g, build vs = Ok g) <->
  NoDup (map gv_name vs) /\ forall a b i j, meets vs a b i j -> exists r, related (ji_type i) (ji_type j) r.
Proof.
  split.
  - intros (g & H). destruct (build_ok _ _ H) as (HN & H2 & _). split; [exact HN|].
    intros a b i j M. pose proof M as (_ & va & vb & [Hva <-] & [Hvb Hb] & Hi & Hj & (k & Hk1 & Hk2 & Hk3) & _).
    destruct (derive_relationship (ji_type i) (ji_type j)) as [r|x] eqn:E; [exists r; apply derive_spec; exact E|].
    exfalso. apply derive_err in E. destruct E as [_ E]. specialize (H2 va Hva). unfold view_adj in H2.
    destruct (cand_fold_ok _ _ _ H2) as [H3 _]. apply (H3 b QueryError). apply cands_In. exists i.
    assert (Hw : In b (identifier_map vs (ji_name i))) by (apply identifier_map_In; exists vb, k; auto).
    split; [exact Hi|]. split; [exact Hw|]. symmetry. apply candidate_err; auto. split; [reflexivity|]. exists j. auto.
  - intros [HN HM]. destruct (build vs) as [g|x] eqn:E; [exists g; reflexivity|]. exfalso.
    destruct (build_err _ _ E HN) as (v & Hv & K). apply cand_fold_err in K. destruct K as (w & K).
    apply cands_In in K. destruct K as (i & Hi & Hw & K). symmetry in K.
    apply (candidate_err vs v i w x HN Hv Hi Hw) in K. destruct K as (_ & j & M & K).
    destruct (HM _ _ _ _ M) as (r & Hr). exact (K r Hr).
Qed.
Print Assumptions C09_build_succeeds_iff.

Theorem C09_distinct_names_only_query_errors vs x :
  NoDup (map gv_name vs) -> build vs = Err x -> x = QueryError.
Proof.
  intros HN E. destruct (build_err _ _ E HN) as (v & Hv & K). apply cand_fold_err in K. destruct K as (w & K).
  apply cands_In in K. destruct K as (i & Hi & Hw & K). symmetry in K.
  apply (candidate_err vs v i w x HN Hv Hi Hw) in K. apply K.
Qed.
Print Assumptions C09_distinct_names_only_query_errors.

(** Finding: with duplicate view names the promised QueryError can be an AttributeError instead: the
    second "orders" carries the identifier, the first one (found by get_view) does not. *)
Definition simple_id (n : string) (t : itype) : jident := JIdent n t [] [] "" M2O "" None None.
Theorem C09_duplicate_names_raise_query_error_refuted :
  exists vs, ~ NoDup (map gv_name vs) /\ build vs = Err AttributeError.
Proof.
  exists [GView "customers" [simple_id "customer_id" TPrimary]; GView "orders" []; GView "orders" [simple_id "customer_id" TForeign]].
  split; [|reflexivity]. simpl. intros H. inversion H as [|? ? _ H1]; subst. inversion H1 as [|? ? H2 _]; subst.
  apply H2. left; reflexivity.
Qed.
Print Assumptions C09_duplicate_names_raise_query_error_refuted.

(** A graph with a many_to_one join, its fan-out reverse (allowed), a refused fan-out and an only_join. *)
Definition ex_vs : list gview :=
  [ GView "orders" [simple_id "order_id" TPrimary; simple_id "customer_id" TForeign];
    GView "customers" [JIdent "customer_id" TPrimary [] ["orders"] "" M2O "" None None];
    GView "lines" [simple_id "order_id" TForeign;
                   JIdent "to_cust" TJoin [] [] "customers" M2O "${lines.c}=${customers.c}" None None];
    GView "islands" [simple_id "island_id" TPrimary] ].
Definition ex_g : graph := match build ex_vs with Ok g => g | Err _ => [] end.
Example C09_case :
  build ex_vs = Ok ex_g /\ In "orders" (map gv_name ex_vs) /\
  has_edge ex_g "orders" "customers" /\ has_edge ex_g "customers" "orders" /\
  has_edge ex_g "lines" "orders" /\ get_edge ex_g "orders" "lines" = None /\
  has_edge ex_g "lines" "customers" /\ get_edge ex_g "customers" "lines" = None.
Proof. repeat split; try (eexists; reflexivity); try (left; reflexivity). Qed.
Example C09_case_hypotheses :
  NoDup (map gv_name ex_vs) /\ forall a b i j, meets ex_vs a b i j -> exists r, related (ji_type i) (ji_type j) r.
Proof. apply C09_build_succeeds_iff. exists ex_g. reflexivity. Qed.

(** ** C11 *)

(** Every view of the project gets a name; two get the same one exactly when each can be joined from
    the other along graph edges. *)
Theorem C11_same_join_graph_iff_mutually_joinable vs g u v :
  build vs = Ok g -> In u (map gv_name vs) -> In v (map gv_name vs) ->
  (exists s, join_graph_hash g u = Ok s) /\
  (join_graph_hash g u = join_graph_hash g v <-> reaches g u v /\ reaches g v u).
Proof.
  intros H Hu Hv. assert (W := build_wf _ _ H).
  apply in_map_iff in Hu. destruct Hu as (a & <- & Ha). apply in_map_iff in Hv. destruct Hv as (b & <- & Hb).
  assert (Na := build_nodes _ _ _ H Ha). assert (Nb := build_nodes _ _ _ H Hb).
  pose proof (proj2 (hash_defined g W _) Na) as (s & Hs). pose proof (proj2 (hash_defined g W _) Nb) as (t & Ht).
  split; [exists s; exact Hs|]. rewrite <- (hash_same g W (gv_name a) (gv_name b) s Hs). rewrite Hs.
  split; intros K; congruence.
Qed.
Print Assumptions C11_same_join_graph_iff_mutually_joinable.

(** A name outside the graph raises QueryError. *)
Theorem C11_unknown_view_is_an_error vs g v :
  build vs = Ok g -> (join_graph_hash g v = Err QueryError <-> ~ In v (g_nodes g)).
Proof.
  intros H. assert (W := build_wf _ _ H). rewrite <- (hash_defined g W). split.
  - intros E (s & K). congruence.
  - intros K. destruct (join_graph_hash g v) as [s|x] eqn:E; [destruct K; exists s; reflexivity|].
    unfold join_graph_hash in E. destruct (find _ _) as [[i c]|]; congruence.
Qed.
Print Assumptions C11_unknown_view_is_an_error.

(** A view lists join graph [s] iff some, equivalently every, member of [s] reaches it. *)
Theorem C11_join_graphs_of_a_view vs g v s :
  build vs = Ok g ->
  (In s (weak_join_graph_hashes g v) <-> exists u, join_graph_hash g u = Ok s /\ reaches g u v) /\
  (In s (weak_join_graph_hashes g v) <->
     (exists u, join_graph_hash g u = Ok s) /\ forall u, join_graph_hash g u = Ok s -> reaches g u v).
Proof.
  intros H. assert (W := build_wf _ _ H). split; [apply weak_In; exact W|]. rewrite (weak_In g W). split.
  - intros (u & Hu & Hr). split; [exists u; exact Hu|]. intros w Hw.
    pose proof (proj1 (hash_same g W w u s Hw) Hu) as [M _]. eapply reaches_trans; eauto.
  - intros ((u & Hu) & K). exists u. auto.
Qed.
Print Assumptions C11_join_graphs_of_a_view.

(** Joinable views: the others sharing one of these, each once, in alphabetical order. *)
Theorem C11_joinable_views vs g v :
  build vs = Ok g ->
  (forall w, In w (get_joinable_view_names g v) <->
     w <> v /\ exists s, In s (weak_join_graph_hashes g v) /\ In s (weak_join_graph_hashes g w)) /\
  NoDup (get_joinable_view_names g v) /\ sorted String.leb (get_joinable_view_names g v).
Proof.
  intros H. assert (W := build_wf _ _ H). split; [intros w; apply joinable_In; exact W|].
  unfold get_joinable_view_names. set (l := flat_map _ _). split.
  - apply NoDup_filter. unfold sort_str. apply isort_NoDup, dedup_NoDup.
  - assert (S := isort_sorted String.leb String.leb_total str_leb_trans (dedup l)). unfold sort_str.
    induction S as [|x m Hx Hm IH]; simpl; [constructor|]. destruct (negb (x =? v)%string); [|exact IH].
    constructor; [|exact IH]. intros y Hy. apply filter_In in Hy. apply Hx. apply Hy.
Qed.
Print Assumptions C11_joinable_views.

Example C11_case :
  join_graph_hash ex_g "orders" = join_graph_hash ex_g "customers" /\
  join_graph_hash ex_g "orders" <> join_graph_hash ex_g "lines" /\
  weak_join_graph_hashes ex_g "orders" = ["subquery_0"; "subquery_1"] /\
  get_joinable_view_names ex_g "orders" = ["customers"; "lines"].
Proof. vm_compute. repeat split; discriminate. Qed.

(** ** C12 *)

(** Whatever order the components (and their members) are enumerated in, the numbering is the same. *)
Theorem C12_numbering_independent_of_enumeration vs g cs :
  build vs = Ok g ->
  (* [cs] enumerates the classes of mutually reachable views *)
  (forall c, In c cs -> NoDup c /\ exists u, In u (g_nodes g) /\ forall w, In w c <-> reaches g u w /\ reaches g w u) ->
  (forall u, In u (g_nodes g) -> exists c, In c cs /\ In u c) ->
  ForallOrdPairs (fun c d => forall x, In x c -> ~ In x d) cs ->
  sort_components cs = sorted_components g.
Proof.
  intros H E1 E2 E3. apply sort_components_det; [exact (build_wf _ _ H)|]. split; [exact E1|]. split; [exact E2|exact E3].
Qed.
Print Assumptions C12_numbering_independent_of_enumeration.

(** The hypotheses are met: such an enumeration exists for every graph that is built. *)
Theorem C12_an_enumeration_exists vs g :
  build vs = Ok g ->
  (forall c, In c (components g) -> NoDup c /\ exists u, In u (g_nodes g) /\ forall w, In w c <-> reaches g u w /\ reaches g w u) /\
  (forall u, In u (g_nodes g) -> exists c, In c (components g) /\ In u c) /\
  ForallOrdPairs (fun c d => forall x, In x c -> ~ In x d) (components g).
Proof. intros H. exact (components_enum g (build_wf _ _ H)). Qed.
Print Assumptions C12_an_enumeration_exists.

(** Larger components come first; among equal sizes the alphabetically later first view comes first. *)
Theorem C12_numbering_order vs g i j c d :
  build vs = Ok g ->
  nth_error (sorted_components g) i = Some c -> nth_error (sorted_components g) j = Some d -> i < j ->
  List.length d < List.length c \/
  (List.length d = List.length c /\ exists x y, In x c /\ (forall z, In z c -> String.leb x z = true) /\
     In y d /\ (forall z, In z d -> String.leb y z = true) /\ String.leb y x = true /\ x <> y).
Proof.
  intros H Hc Hd Hij. assert (W := build_wf _ _ H).
  assert (S := isort_sorted comp_key_leb comp_key_total comp_key_trans (map sort_str (components g))).
  change (sorted comp_key_leb (sorted_components g)) in S.
  assert (L : comp_key_leb c d = true).
  { clear H W. revert i j Hc Hd Hij. induction S as [|x l Hx Hl IH]; intros i j Hc Hd Hij; [destruct i; discriminate|].
    destruct j as [|j]; [lia|]. destruct i as [|i]; simpl in Hc, Hd.
    - injection Hc as <-. apply Hx. eapply nth_error_In; eauto.
    - apply (IH i j); auto. lia. }
  pose proof (nth_error_In _ _ Hc) as Ic. pose proof (nth_error_In _ _ Hd) as Id.
  assert (Mn : forall k, In k (sorted_components g) -> In (hd "" k) k /\ forall z, In z k -> String.leb (hd "" k) z = true).
  { intros k Hk. destruct (sorted_nonempty g W k Hk) as (u & Hu). apply sorted_components_In in Hk.
    apply in_map_iff in Hk. destruct Hk as (k' & <- & _).
    assert (S' := isort_sorted String.leb String.leb_total str_leb_trans k'). change (isort String.leb k') with (sort_str k') in S'.
    destruct S' as [|x l Hx _]; [destruct Hu|]. simpl. split; [left; reflexivity|].
    intros z [<-|Hz]; [apply str_leb_refl|auto]. }
  unfold comp_key_leb in L. rewrite orb_true_iff, andb_true_iff, Nat.ltb_lt, Nat.eqb_eq in L.
  destruct L as [L|[L1 L2]]; [left; exact L|right]. split; [lia|].
  destruct (Mn c Ic) as [M1 M2], (Mn d Id) as [M3 M4]. exists (hd "" c), (hd "" d). repeat (split; [assumption|]).
  intros E. assert (c = d) by (apply (sorted_unique g W c d (hd "" c) Ic Id M1); rewrite E; exact M3). subst d.
  assert (i = j); [|lia]. apply (proj1 (NoDup_nth_error _) (sorted_NoDup g W)); [|congruence].
  apply nth_error_Some. congruence.
Qed.
Print Assumptions C12_numbering_order.

Example C12_case :
  sorted_components ex_g = [["customers"; "orders"]; ["lines"]; ["islands"]] /\
  list_join_graphs ex_g = ["subquery_0"; "subquery_1"; "subquery_2"].
Proof. vm_compute. split; reflexivity. Qed.

(** C09: two views of one name are refused, whatever the views without identifiers around them. *)
Theorem C09_duplicate_names : forall vs, (forall v, In v vs -> gv_ids v = []) -> ~ NoDup (map gv_name vs) -> build vs = Err QueryError.
Proof.
  intros vs NI D. unfold build. generalize (reference_map vs). intros rm.
  assert (H : forall todo seen g, (forall v, In v todo -> gv_ids v = []) -> (NoDup (map gv_name todo) -> exists v, In v todo /\ In (gv_name v) seen) ->
    build_loop vs rm todo seen g = Err QueryError).
  { induction todo as [|v todo IH]; intros seen g I X; [destruct (X (NoDup_nil _)) as (v & [] & _)|].
    cbn [build_loop]. destruct (mem (gv_name v) seen) eqn:M; [reflexivity|].
    assert (A : exists g', add_view vs rm g v = Ok g') by (unfold add_view; rewrite (I v (or_introl eq_refl)); eexists; reflexivity).
    destruct A as [g' ->]. cbn [bind]. apply IH; [intros w W; apply I; now right|]. intros N.
    destruct (in_dec string_dec (gv_name v) (map gv_name todo)) as [J|J].
    - apply in_map_iff in J. destruct J as (w & E & W). exists w. split; [exact W|left; now symmetry].
    - destruct (X (NoDup_cons _ J N)) as (w & [<-|W] & S'); [apply mem_false in M; contradiction|]. exists w. split; [exact W|now right]. }
  apply H; [exact NI|intros N; destruct (D N)].
Qed.
Print Assumptions C09_duplicate_names.
Example C09_duplicate_names_case : build [GView "a" []; GView "b" []; GView "a" []] = Err QueryError.
Proof. reflexivity. Qed.
