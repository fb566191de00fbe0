(** Strongly connected components: correctness of the computed enumeration, of the numbering and of
    the weak join graphs (C11, C12). *)
From Verif Require Import PyBase PyStr PySort PyGraph JoinGraph_Model JoinGraph_Spec JoinGraph_Proofs.
Local Open Scope string_scope.
Local Open Scope list_scope.
Local Open Scope nat_scope.

Lemma assoc_keys {V} k (d : list (string * V)) : In k (map fst d) <-> exists v, assoc k d = Some v.
Proof.
  destruct (assoc k d) as [v|] eqn:E.
  - split; [intros _; eauto|]. intros _. apply assoc_In in E. apply (in_map fst) in E. exact E.
  - split; [|intros (v & H); discriminate]. intros H. apply assoc_None in E. tauto.
Qed.

Lemma succ_edge g u v : In v (g_succ g u) <-> has_edge g u v.
Proof.
  unfold g_succ, has_edge, get_edge. destruct (assoc u g) as [a|]; [apply assoc_keys|].
  split; [intros []|intros (e & H); discriminate].
Qed.

(** ** Built graphs are well formed *)
Definition wf' (g : graph) : Prop :=
  NoDup (g_nodes g) /\ (forall u, NoDup (map fst (adj_of g u))) /\
  (forall u v, In v (map fst (adj_of g u)) -> In v (g_nodes g)).

Lemma add_node_nodes g n x : In x (g_nodes (add_node g n)) <-> x = n \/ In x (g_nodes g).
Proof.
  unfold add_node, g_nodes. destruct (assoc n g) as [a|] eqn:E.
  - split; [auto|]. intros [->|H]; [|exact H]. apply assoc_In in E. apply (in_map fst) in E. exact E.
  - rewrite map_app, in_app_iff. simpl. intuition.
Qed.
Lemma add_node_NoDup g n : NoDup (g_nodes g) -> NoDup (g_nodes (add_node g n)).
Proof.
  unfold add_node, g_nodes. destruct (assoc n g) as [a|] eqn:E; [auto|]. intros H. rewrite map_app. simpl.
  apply assoc_None in E. apply (Permutation_NoDup (l := n :: map fst g)); [apply Permutation_cons_append|].
  constructor; assumption.
Qed.
Lemma add_edge_nodes g u v e x : In x (g_nodes (add_edge g u v e)) <-> x = u \/ x = v \/ In x (g_nodes g).
Proof.
  unfold add_edge, g_nodes. rewrite upsert_keys_In.
  change (x = u \/ In x (g_nodes (add_node (add_node g u) v)) <-> x = u \/ x = v \/ In x (g_nodes g)).
  rewrite !add_node_nodes. tauto.
Qed.
Lemma add_edge_wf g u v e : wf' g -> wf' (add_edge g u v e).
Proof.
  intros (W1 & W2 & W3). split; [|split].
  - unfold add_edge, g_nodes. apply upsert_NoDup. apply add_node_NoDup, add_node_NoDup. exact W1.
  - intros w. rewrite adj_of_add_edge. destruct (String.eqb w u); [apply upsert_NoDup|]; apply W2.
  - intros w x. rewrite adj_of_add_edge, add_edge_nodes. destruct (String.eqb w u).
    + rewrite upsert_keys_In. intros [->|H]; [auto|]. right; right. exact (W3 _ _ H).
    + intros H. right; right. exact (W3 _ _ H).
Qed.
Lemma add_node_wf g n : wf' g -> wf' (add_node g n).
Proof.
  intros (W1 & W2 & W3). split; [apply add_node_NoDup; exact W1|]. split.
  - intros u. rewrite adj_of_add_node. apply W2.
  - intros u v. rewrite adj_of_add_node, add_node_nodes. intros H. right. exact (W3 _ _ H).
Qed.
Lemma foldM_inv {A B} (P : A -> Prop) (f : A -> B -> res A) :
  (forall a b a', P a -> f a b = Ok a' -> P a') -> forall l a a', P a -> foldM f a l = Ok a' -> P a'.
Proof.
  intros Hf l; induction l as [|b l IH]; simpl; intros a a' Ha H; [injection H as <-; exact Ha|].
  apply bind_ok in H. destruct H as (a1 & H1 & H). eapply IH; [|exact H]. eapply Hf; eauto.
Qed.
Lemma add_identifier_join_wf vs v i g w g' : wf' g -> add_identifier_join vs v i g w = Ok g' -> wf' g'.
Proof.
  intros W. unfold add_identifier_join.
  destruct (negb (String.eqb w v) && allowed_join (ji_only_join i) w); [|intros H; injection H as <-; exact W].
  destruct (find _ vs) as [wv|]; [|discriminate]. destruct (find _ (gv_ids wv)) as [j|]; [|discriminate].
  destruct (negb (allowed_join (ji_only_join j) v)); [intros H; injection H as <-; exact W|].
  intros H. apply bind_ok in H. destruct H as (e & _ & H).
  destruct (is_fanout (e_rel e) && negb (mem w (ji_fanouts i))); [injection H as <-; exact W|].
  destruct (get_edge g v w) as [old|]; [|injection H as <-; apply add_edge_wf; exact W].
  destruct (preference (e_rel e) <? preference (e_rel old)); injection H as <-; [apply add_edge_wf|]; exact W.
Qed.
Lemma fold_add_edge_wf u (l : adj) : forall g,
  wf' g -> wf' (fold_left (fun g we => add_edge g u (fst we) (snd we)) l g).
Proof. induction l as [|[w e] l IH]; simpl; intros g W; [exact W|]. apply IH, add_edge_wf, W. Qed.
Lemma add_view_wf vs rm g v g' : wf' g -> add_view vs rm g v = Ok g' -> wf' g'.
Proof.
  intros W. unfold add_view. apply foldM_inv.
  - intros a i a' Ha H. revert H. apply foldM_inv; [|exact Ha]. intros b w b' Hb. apply add_identifier_join_wf. exact Hb.
  - apply fold_add_edge_wf, add_node_wf. exact W.
Qed.
Lemma build_wf' vs g : build vs = Ok g -> wf' g.
Proof.
  unfold build. generalize (reference_map vs) as rm. intros rm.
  assert (W : wf' []).
  { split; [constructor|]. split; [intros u; constructor|]. intros u v []. }
  revert W. generalize (@nil (string * adj)) as g0. generalize (@nil string) as seen. generalize vs at 2 as todo.
  induction todo as [|v todo IH]; simpl; intros seen g0 W H; [injection H as <-; exact W|].
  destruct (mem (gv_name v) seen); [discriminate|]. apply bind_ok in H. destruct H as (g1 & H1 & H).
  eapply IH; [|exact H]. eapply add_view_wf; eauto.
Qed.
Lemma NoDup_assoc {V} (d : list (string * V)) k v : NoDup (map fst d) -> In (k, v) d -> assoc k d = Some v.
Proof.
  induction d as [|[k0 v0] d IH]; simpl; intros HN H; [destruct H|]. inversion HN as [|? ? N1 N2]; subst.
  destruct H as [H|H]; [injection H as -> ->; rewrite String.eqb_refl; reflexivity|].
  destruct (String.eqb k k0) eqn:E; [|auto]. apply String.eqb_eq in E. subst k0.
  exfalso. apply N1. apply (in_map fst) in H. exact H.
Qed.
Lemma wf'_wf g : wf' g -> wf_graph g.
Proof.
  intros (W1 & W2 & W3). split; [exact W1|]. split.
  - intros u a H. specialize (W2 u). unfold adj_of in W2. rewrite (NoDup_assoc g u a W1 H) in W2. exact W2.
  - intros u v (e & H). apply (W3 u). apply assoc_keys. exists e. rewrite <- get_edge_adj. exact H.
Qed.
Lemma build_wf vs g : build vs = Ok g -> wf_graph g.
Proof. intros H. apply wf'_wf. exact (build_wf' _ _ H). Qed.

Lemma build_nodes vs g v : build vs = Ok g -> In v vs -> In (gv_name v) (g_nodes g).
Proof.
  unfold build. generalize (reference_map vs) as rm. intros rm.
  assert (M : forall rm' g0 x g1 y, add_view vs rm' g0 x = Ok g1 -> y = gv_name x \/ In y (g_nodes g0) -> In y (g_nodes g1)).
  { intros rm' g0 x g1 y H Hy. unfold add_view in H.
    assert (G : forall l g2, In y (g_nodes g2) ->
       In y (g_nodes (fold_left (fun g we => add_edge g (gv_name x) (fst we) (snd we)) l g2))).
    { induction l as [|[w e] l IH]; simpl; intros g2 H2; [exact H2|]. apply IH. apply add_edge_nodes. auto. }
    revert H. apply (foldM_inv (fun g => In y (g_nodes g))).
    - intros a i a' Ha. apply (foldM_inv (fun g => In y (g_nodes g))); [|exact Ha].
      intros b w b' Hb. unfold add_identifier_join.
      destruct (negb (String.eqb w (gv_name x)) && allowed_join (ji_only_join i) w); [|intros K; injection K as <-; exact Hb].
      destruct (find _ vs) as [wv|]; [|discriminate]. destruct (find _ (gv_ids wv)) as [j|]; [|discriminate].
      destruct (negb (allowed_join (ji_only_join j) (gv_name x))); [intros K; injection K as <-; exact Hb|].
      intros K. apply bind_ok in K. destruct K as (e & _ & K).
      destruct (is_fanout (e_rel e) && negb (mem w (ji_fanouts i))); [injection K as <-; exact Hb|].
      destruct (get_edge b (gv_name x) w) as [old|]; [|injection K as <-; apply add_edge_nodes; auto].
      destruct (preference (e_rel e) <? preference (e_rel old)); injection K as <-; [apply add_edge_nodes; auto|exact Hb].
    - apply G. apply add_node_nodes. exact Hy. }
  intros H Hv. revert H. generalize (@nil (string * adj)) as g0. generalize (@nil string) as seen.
  assert (Q : forall todo seen g0, build_loop vs rm todo seen g0 = Ok g ->
                In v todo \/ In (gv_name v) (g_nodes g0) -> In (gv_name v) (g_nodes g)).
  { induction todo as [|x todo IH]; simpl; intros seen g0 H K.
    - injection H as <-. destruct K as [[]|K]; exact K.
    - destruct (mem (gv_name x) seen); [discriminate|]. apply bind_ok in H. destruct H as (g1 & H1 & H).
      apply (IH _ _ H). destruct K as [[->|K]|K]; [right; eapply M; eauto|left; exact K|right; eapply M; eauto]. }
  intros seen g0 H. apply (Q vs seen g0 H). left; exact Hv.
Qed.

(** ** Reachability *)
Section G.
  Variable g : graph.
  Hypothesis W : wf_graph g.

  Lemma g_closed x y : In x (g_nodes g) -> In y (g_succ g x) -> In y (g_nodes g).
  Proof. intros _ H. destruct W as (_ & _ & W3). apply (W3 x). apply succ_edge. exact H. Qed.

  Lemma has_edge_source u v : has_edge g u v -> In u (g_nodes g).
  Proof.
    intros (e & H). unfold get_edge in H. destruct (assoc u g) as [a|] eqn:E; [|discriminate].
    apply assoc_In in E. apply (in_map fst) in E. exact E.
  Qed.
  Lemma reaches_nodes u v : reaches g u v -> In u (g_nodes g) /\ In v (g_nodes g).
  Proof.
    induction 1 as [u H|u v w H _ [IH1 IH2]]; [auto|]. split; [exact (has_edge_source _ _ H)|exact IH2].
  Qed.
  Lemma reaches_trans u v w : reaches g u v -> reaches g v w -> reaches g u w.
  Proof. induction 1 as [u H|u v x H _ IH]; intros K; [exact K|]. econstructor; [exact H|auto]. Qed.
  Lemma path_reaches u v : path (g_succ g) u v -> In u (g_nodes g) -> reaches g u v.
  Proof.
    induction 1 as [u|u x v H _ IH]; intros Hu; [constructor; exact Hu|].
    econstructor; [apply succ_edge; exact H|]. apply IH. exact (g_closed _ _ Hu H).
  Qed.
  Lemma reaches_path u v : reaches g u v -> path (g_succ g) u v.
  Proof. induction 1 as [u H|u x v H _ IH]; [constructor|]. econstructor; [apply succ_edge; exact H|exact IH]. Qed.

  Lemma g_reach_spec starts x : incl starts (g_nodes g) ->
    (In x (g_reach g starts) <-> exists s, In s starts /\ reaches g s x).
  Proof.
    intros Hi. unfold g_reach. rewrite (reachable_from_spec _ _ g_closed _ _ Hi). split.
    - intros (s & Hs & Hp). exists s. split; [exact Hs|]. apply path_reaches; auto.
    - intros (s & Hs & Hp). exists s. split; [exact Hs|]. apply reaches_path; auto.
  Qed.

  Lemma mutually_equiv :
    (forall u, In u (g_nodes g) -> mutually g u u) /\
    (forall u v, mutually g u v -> mutually g v u) /\
    (forall u v w, mutually g u v -> mutually g v w -> mutually g u w).
  Proof.
    split; [|split].
    - intros u H. split; constructor; exact H.
    - intros u v [H1 H2]. split; assumption.
    - intros u v w [H1 H2] [K1 K2]. split; eapply reaches_trans; eauto.
  Qed.

  Lemma component_In u w : In u (g_nodes g) -> (In w (component g u) <-> mutually g u w).
  Proof.
    intros Hu. unfold component. rewrite filter_In, andb_true_iff, !mem_In. split.
    - intros (Hw & H1 & H2). apply g_reach_spec in H1; [|intros x [<-|[]]; exact Hu].
      apply g_reach_spec in H2; [|intros x [<-|[]]; exact Hw].
      destruct H1 as (s & [<-|[]] & H1). destruct H2 as (s & [<-|[]] & H2). split; assumption.
    - intros [H1 H2]. destruct (reaches_nodes _ _ H1) as [_ Hw]. split; [exact Hw|]. split.
      + apply g_reach_spec; [intros x [<-|[]]; exact Hu|]. exists u. split; [left; reflexivity|exact H1].
      + apply g_reach_spec; [intros x [<-|[]]; exact Hw|]. exists w. split; [left; reflexivity|exact H2].
  Qed.
  Lemma component_NoDup u : NoDup (component g u).
  Proof. apply NoDup_filter. apply W. Qed.

  (** An enumeration of the strongly connected components, in any order, members in any order. *)
  Definition disjoint (c d : list string) : Prop := forall x, In x c -> ~ In x d.
  Definition scc_enumeration (cs : list (list string)) : Prop :=
    (forall c, In c cs -> NoDup c /\ exists u, In u (g_nodes g) /\ forall w, In w c <-> mutually g u w) /\
    (forall u, In u (g_nodes g) -> exists c, In c cs /\ In u c) /\
    ForallOrdPairs disjoint cs.

  Lemma components_aux_spec todo : forall seen,
    incl todo (g_nodes g) ->
    (forall u w, In u seen -> mutually g u w -> In w seen) ->
    (forall c, In c (components_aux g todo seen) -> exists u, In u todo /\ ~ In u seen /\ c = component g u) /\
    (forall u, In u todo -> In u seen \/ exists c, In c (components_aux g todo seen) /\ In u c) /\
    ForallOrdPairs disjoint (components_aux g todo seen) /\
    (forall c x, In c (components_aux g todo seen) -> In x c -> ~ In x seen).
  Proof.
    destruct mutually_equiv as (M1 & M2 & M3).
    induction todo as [|u todo IH]; intros seen Hi Hs; simpl.
    - split; [intros c []|]. split; [intros u []|]. split; [constructor|intros c x []].
    - assert (Hu : In u (g_nodes g)) by (apply Hi; left; reflexivity).
      assert (Hi' : incl todo (g_nodes g)) by (intros x Hx; apply Hi; right; exact Hx).
      destruct (mem u seen) eqn:E.
      + apply mem_In in E. destruct (IH seen Hi' Hs) as (I1 & I2 & I3 & I4). split; [|split; [|split]]; auto.
        * intros c Hc. destruct (I1 c Hc) as (x & Hx & H). exists x. split; [right; exact Hx|exact H].
        * intros x [<-|Hx]; [left; exact E|auto].
      + apply mem_false in E. destruct (IH (component g u ++ seen) Hi') as (I1 & I2 & I3 & I4).
        { intros x w Hx Hm. apply in_app_or in Hx. apply in_or_app. destruct Hx as [Hx|Hx].
          - left. apply component_In; [exact Hu|]. apply component_In in Hx; [|exact Hu]. eapply M3; eauto.
          - right. eapply Hs; eauto. }
        split; [|split; [|split]].
        * intros c [<-|Hc]; [exists u; split; [left; reflexivity|split; [exact E|reflexivity]]|].
          destruct (I1 c Hc) as (x & Hx & Hn & Hc'). exists x. split; [right; exact Hx|]. split; [|exact Hc'].
          intros K. apply Hn. apply in_or_app. right; exact K.
        * intros x [<-|Hx].
          -- right. exists (component g u). split; [left; reflexivity|]. apply component_In; auto.
          -- destruct (I2 x Hx) as [K|(c & Hc & Hxc)]; [|right; exists c; split; [right; exact Hc|exact Hxc]].
             apply in_app_or in K. destruct K as [K|K]; [|left; exact K].
             right. exists (component g u). split; [left; reflexivity|exact K].
        * constructor; [|exact I3]. apply Forall_forall. intros c Hc x Hx Hxc.
          apply (I4 c x Hc Hxc). apply in_or_app. left; exact Hx.
        * intros c x [<-|Hc] Hx.
          -- intros K. apply E. apply component_In in Hx; [|exact Hu]. apply (Hs x u K). apply M2. exact Hx.
          -- intros K. apply (I4 c x Hc Hx). apply in_or_app. right; exact K.
  Qed.

  Lemma components_enum : scc_enumeration (components g).
  Proof.
    destruct (components_aux_spec (g_nodes g) [] (fun x H => H)) as (C1 & C2 & C3 & _); [intros u w []|].
    split; [|split].
    - intros c Hc. destruct (C1 c Hc) as (u & Hu & _ & ->). split; [apply component_NoDup|].
      exists u. split; [exact Hu|]. intros w. apply component_In. exact Hu.
    - intros u Hu. destruct (C2 u Hu) as [[]|H]. exact H.
    - exact C3.
  Qed.

  (** ** Sorting *)
  Lemma comp_key_total a b : comp_key_leb a b = true \/ comp_key_leb b a = true.
  Proof.
    unfold comp_key_leb. rewrite !orb_true_iff, !andb_true_iff, !Nat.ltb_lt, !Nat.eqb_eq.
    destruct (String.leb_total (hd "" a) (hd "" b)) as [H|H]; rewrite H; lia.
  Qed.
  Lemma comp_key_trans a b c : comp_key_leb a b = true -> comp_key_leb b c = true -> comp_key_leb a c = true.
  Proof.
    unfold comp_key_leb. rewrite !orb_true_iff, !andb_true_iff, !Nat.ltb_lt, !Nat.eqb_eq.
    intros [H|[H1 H2]] [K|[K1 K2]]; try (left; lia). right. split; [lia|]. eapply str_leb_trans; eauto.
  Qed.

  Lemma class_nonempty cs c : scc_enumeration cs -> In c cs -> exists u, In u c /\ In u (g_nodes g).
  Proof.
    intros (E1 & _) Hc. destruct (E1 c Hc) as (_ & u & Hu & H). exists u. split; [|exact Hu].
    apply H. exact (proj1 mutually_equiv u Hu).
  Qed.

  Lemma FOP_NoDup_map cs : scc_enumeration cs -> NoDup (map sort_str cs).
  Proof.
    intros E. assert (NE := class_nonempty cs). specialize (fun c => NE c E).
    destruct E as (_ & _ & E3). induction E3 as [|c l Hc Hl IH]; simpl; constructor.
    - intros K. apply in_map_iff in K. destruct K as (d & Ed & Hd). rewrite Forall_forall in Hc.
      destruct (NE c (or_introl eq_refl)) as (u & Hu & _). apply (Hc d Hd u Hu).
      apply sort_str_In. rewrite Ed. apply sort_str_In. exact Hu.
    - apply IH. intros d Hd. apply NE. right; exact Hd.
  Qed.

  Lemma enum_same_classes cs ds c : scc_enumeration cs -> scc_enumeration ds -> In c cs ->
    exists d, In d ds /\ sort_str d = sort_str c.
  Proof.
    intros Ec Ed Hc. destruct (class_nonempty cs c Ec Hc) as (u & Huc & Hu).
    destruct Ed as (D1 & D2 & _). destruct (D2 u Hu) as (d & Hd & Hud). exists d. split; [exact Hd|].
    destruct Ec as (C1 & _ & _). destruct (C1 c Hc) as (NC & x & Hx & Cx). destruct (D1 d Hd) as (ND & y & Hy & Dy).
    apply sort_str_perm_eq. apply NoDup_Permutation; [exact ND|exact NC|]. intros w.
    rewrite Cx, Dy. apply Cx in Huc. apply Dy in Hud. destruct mutually_equiv as (_ & M2 & M3).
    split; intros K.
    - eapply M3; [exact Huc|]. eapply M3; [apply M2; exact Hud|exact K].
    - eapply M3; [exact Hud|]. eapply M3; [apply M2; exact Huc|exact K].
  Qed.

  Lemma enum_perm cs ds : scc_enumeration cs -> scc_enumeration ds ->
    Permutation (map sort_str cs) (map sort_str ds).
  Proof.
    intros Ec Ed. apply NoDup_Permutation; [apply FOP_NoDup_map; exact Ec|apply FOP_NoDup_map; exact Ed|].
    intros x. rewrite !in_map_iff. split; intros (c & <- & Hc).
    - destruct (enum_same_classes cs ds c Ec Ed Hc) as (d & Hd & E). exists d. auto.
    - destruct (enum_same_classes ds cs c Ed Ec Hc) as (d & Hd & E). exists d. auto.
  Qed.

  Lemma comp_key_antisym cs a b : scc_enumeration cs ->
    In a (map sort_str cs) -> In b (map sort_str cs) ->
    comp_key_leb a b = true -> comp_key_leb b a = true -> a = b.
  Proof.
    intros E Ha Hb H1 H2. unfold comp_key_leb in H1, H2.
    rewrite orb_true_iff, andb_true_iff, Nat.ltb_lt, Nat.eqb_eq in H1, H2.
    assert (Hh : hd "" a = hd "" b) by (apply String.leb_antisym; destruct H1, H2; try lia; tauto).
    apply in_map_iff in Ha, Hb. destruct Ha as (c & <- & Hc), Hb as (d & <- & Hd).
    destruct (class_nonempty _ _ E Hc) as (u & Hu & _). destruct (class_nonempty _ _ E Hd) as (w & Hw & _).
    assert (Hhc : In (hd "" (sort_str c)) c).
    { apply sort_str_In in Hu. rewrite <- (sort_str_In c). destruct (sort_str c) as [|x l]; [destruct Hu|left; reflexivity]. }
    assert (Hhd : In (hd "" (sort_str d)) d).
    { apply sort_str_In in Hw. rewrite <- (sort_str_In d). destruct (sort_str d) as [|x l]; [destruct Hw|left; reflexivity]. }
    rewrite <- Hh in Hhd. destruct E as (_ & _ & E3).
    destruct (ForallOrdPairs_In E3 _ _ Hc Hd) as [K|[K|K]].
    - congruence.
    - destruct (K _ Hhc Hhd).
    - destruct (K _ Hhd Hhc).
  Qed.

  Lemma sort_components_det cs : scc_enumeration cs -> sort_components cs = sorted_components g.
  Proof.
    intros E. unfold sorted_components, sort_components.
    apply isort_perm_eq; [apply comp_key_total|apply comp_key_trans| |].
    - intros a b. apply (comp_key_antisym cs). exact E.
    - apply enum_perm; [exact E|apply components_enum].
  Qed.

  (** ** Names of components *)
  Lemma sorted_components_In c : In c (sorted_components g) <-> In c (map sort_str (components g)).
  Proof. apply isort_In. Qed.
  Lemma sorted_class c u : In c (sorted_components g) -> In u c ->
    In u (g_nodes g) /\ forall w, In w c <-> mutually g u w.
  Proof.
    rewrite sorted_components_In, in_map_iff. intros (d & <- & Hd) Hu. rewrite sort_str_In in Hu.
    destruct components_enum as (E1 & _ & _). destruct (E1 d Hd) as (_ & x & Hx & Dx).
    destruct mutually_equiv as (_ & M2 & M3). pose proof (proj1 (Dx u) Hu) as Hxu. split.
    - exact (proj2 (reaches_nodes _ _ (proj1 Hxu))).
    - intros w. rewrite sort_str_In, Dx. split; intros K.
      + eapply M3; [apply M2; exact Hxu|exact K].
      + eapply M3; eauto.
  Qed.
  Lemma sorted_cover u : In u (g_nodes g) -> exists c, In c (sorted_components g) /\ In u c.
  Proof.
    intros Hu. destruct components_enum as (_ & E2 & _). destruct (E2 u Hu) as (c & Hc & Huc).
    exists (sort_str c). split; [apply sorted_components_In, in_map; exact Hc|apply sort_str_In; exact Huc].
  Qed.
  Lemma sorted_NoDup : NoDup (sorted_components g).
  Proof. unfold sorted_components, sort_components. apply isort_NoDup. apply FOP_NoDup_map, components_enum. Qed.
  Lemma sorted_unique c d u : In c (sorted_components g) -> In d (sorted_components g) -> In u c -> In u d -> c = d.
  Proof.
    intros Hc Hd H1 H2. apply sorted_components_In in Hc, Hd. apply in_map_iff in Hc, Hd.
    destruct Hc as (c' & <- & Hc), Hd as (d' & <- & Hd). destruct components_enum as (_ & _ & E3).
    destruct (ForallOrdPairs_In E3 _ _ Hc Hd) as [K|[K|K]]; [congruence| |].
    - rewrite sort_str_In in H1, H2. destruct (K _ H1 H2).
    - rewrite sort_str_In in H1, H2. destruct (K _ H2 H1).
  Qed.
  Lemma sorted_nonempty c : In c (sorted_components g) -> exists u, In u c.
  Proof.
    rewrite sorted_components_In, in_map_iff. intros (d & <- & Hd).
    destruct (class_nonempty _ _ components_enum Hd) as (u & Hu & _). exists u. apply sort_str_In. exact Hu.
  Qed.

  Lemma enumerate_In {A} (l : list A) i x : In (i, x) (enumerate l) <-> nth_error l i = Some x.
  Proof.
    unfold enumerate. assert (G : forall k, In (i, x) (combine (seq k (List.length l)) l) <-> k <= i /\ nth_error l (i - k) = Some x).
    { induction l as [|y l IH]; intros k; simpl.
      - split; [intros []|]. intros [_ H]. destruct (i - k); discriminate.
      - rewrite IH. split.
        + intros [H|[H1 H2]].
          * injection H as <- <-. split; [lia|]. rewrite Nat.sub_diag. reflexivity.
          * split; [lia|]. replace (i - k) with (S (i - S k)) by lia. exact H2.
        + intros [H1 H2]. destruct (Nat.eq_dec i k) as [->|Hne].
          * left. rewrite Nat.sub_diag in H2. injection H2 as ->. reflexivity.
          * right. split; [lia|]. replace (i - k) with (S (i - S k)) in H2 by lia. exact H2. }
    rewrite G. rewrite Nat.sub_0_r. split; [tauto|]. intros H. split; [lia|exact H].
  Qed.

  Lemma subquery_inj i j : subquery i = subquery j -> i = j.
  Proof. unfold subquery. intros H. apply append_inj_l in H. exact (nat_str_inj _ _ H). Qed.

  Lemma join_graph_hash_spec v s :
    join_graph_hash g v = Ok s <->
    exists i c, nth_error (sorted_components g) i = Some c /\ In v c /\ s = subquery i.
  Proof.
    unfold join_graph_hash. destruct (find _ _) as [[i c]|] eqn:E.
    - apply find_some in E. destruct E as [E1 E2]. simpl in E2. apply mem_In in E2. apply enumerate_In in E1. split.
      + intros H. injection H as <-. exists i, c. auto.
      + intros (j & d & Hd & Hv & ->). f_equal. f_equal.
        assert (c = d) by (eapply sorted_unique; [eapply nth_error_In; eauto|eapply nth_error_In; eauto|exact E2|exact Hv]).
        subst d. apply (proj1 (NoDup_nth_error _) sorted_NoDup); [|congruence].
        apply nth_error_Some. congruence.
    - split; [discriminate|]. intros (j & d & Hd & Hv & ->). apply enumerate_In in Hd.
      apply (find_none _ _ E) in Hd. simpl in Hd. apply mem_false in Hd. tauto.
  Qed.

  Lemma hash_defined v : (exists s, join_graph_hash g v = Ok s) <-> In v (g_nodes g).
  Proof.
    split.
    - intros (s & H). apply join_graph_hash_spec in H. destruct H as (i & c & Hc & Hv & _).
      apply nth_error_In in Hc. exact (proj1 (sorted_class _ _ Hc Hv)).
    - intros H. destruct (sorted_cover v H) as (c & Hc & Hv). apply In_nth_error in Hc. destruct Hc as (i & Hi).
      exists (subquery i). apply join_graph_hash_spec. exists i, c. auto.
  Qed.

  Lemma hash_same u v s : join_graph_hash g u = Ok s -> (join_graph_hash g v = Ok s <-> mutually g u v).
  Proof.
    intros H. apply join_graph_hash_spec in H. destruct H as (i & c & Hc & Hu & ->).
    pose proof (nth_error_In _ _ Hc) as Hin. destruct (sorted_class _ _ Hin Hu) as [_ Cu].
    rewrite join_graph_hash_spec. split.
    - intros (j & d & Hd & Hv & E). apply subquery_inj in E. subst j. apply Cu. congruence.
    - intros M. exists i, c. split; [exact Hc|]. split; [apply Cu; exact M|reflexivity].
  Qed.

  Lemma subgraph_nodes_spec c v : In c (sorted_components g) ->
    (In v (subgraph_nodes g c) <-> exists u, In u c /\ reaches g u v).
  Proof.
    intros Hc. apply g_reach_spec. intros x Hx. exact (proj1 (sorted_class _ _ Hc Hx)).
  Qed.

  Lemma weak_In v s :
    In s (weak_join_graph_hashes g v) <-> exists u, join_graph_hash g u = Ok s /\ reaches g u v.
  Proof.
    unfold weak_join_graph_hashes. rewrite in_map_iff. split.
    - intros ([i c] & <- & H). apply filter_In in H. destruct H as [H1 H2]. simpl in *. apply enumerate_In in H1.
      apply mem_In in H2. apply subgraph_nodes_spec in H2; [|exact (nth_error_In _ _ H1)].
      destruct H2 as (u & Hu & Hr). exists u. split; [|exact Hr]. apply join_graph_hash_spec. exists i, c. auto.
    - intros (u & H & Hr). apply join_graph_hash_spec in H. destruct H as (i & c & Hc & Hu & ->).
      exists (i, c). split; [reflexivity|]. apply filter_In. split; [apply enumerate_In; exact Hc|]. simpl.
      apply mem_In. apply subgraph_nodes_spec; [exact (nth_error_In _ _ Hc)|]. exists u. auto.
  Qed.

  Lemma joinable_In v w :
    In w (get_joinable_view_names g v) <->
    w <> v /\ exists s, In s (weak_join_graph_hashes g v) /\ In s (weak_join_graph_hashes g w).
  Proof.
    unfold get_joinable_view_names. rewrite filter_In, negb_true_iff, String.eqb_neq, sort_str_In.
    rewrite dedup_In, in_flat_map. split.
    - intros [(c & Hc & H) Hne]. split; [exact Hne|]. destruct (mem v (subgraph_nodes g c)) eqn:E; [|destruct H].
      apply mem_In in E. apply subgraph_nodes_spec in E, H; try exact Hc.
      destruct E as (a & Ha & Hra), H as (b & Hb & Hrb).
      pose proof (In_nth_error _ _ Hc) as (i & Hi). exists (subquery i). split; apply weak_In.
      + exists a. split; [apply join_graph_hash_spec; exists i, c; auto|exact Hra].
      + exists b. split; [apply join_graph_hash_spec; exists i, c; auto|exact Hrb].
    - intros (Hne & s & H1 & H2). split; [|exact Hne]. apply weak_In in H1, H2.
      destruct H1 as (a & Ha & Hra), H2 as (b & Hb & Hrb).
      apply join_graph_hash_spec in Ha. destruct Ha as (i & c & Hc & Hac & ->).
      apply join_graph_hash_spec in Hb. destruct Hb as (j & d & Hd & Hbd & E). apply subquery_inj in E. subst j.
      rewrite Hc in Hd. injection Hd as <-. exists c. pose proof (nth_error_In _ _ Hc) as Hin. split; [exact Hin|].
      assert (E : mem v (subgraph_nodes g c) = true).
      { apply mem_In. apply subgraph_nodes_spec; [exact Hin|]. exists a. auto. }
      rewrite E. apply subgraph_nodes_spec; [exact Hin|]. exists b. auto.
  Qed.
End G.
