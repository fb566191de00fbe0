From Verif Require Import PyBase PyStr PySort PyRefs PyGraph JoinGraph_Model JoinGraph_Spec.
Local Open Scope string_scope.
Local Open Scope list_scope.
Local Open Scope nat_scope.

(** ** Dictionaries and graphs *)
Lemma assoc_upsert {V} k (v : V) d k' :
  assoc k' (upsert k v d) = if String.eqb k' k then Some v else assoc k' d.
Proof.
  induction d as [|[k0 v0] d IH]; simpl; [reflexivity|].
  destruct (String.eqb k k0) eqn:E; simpl.
  - apply String.eqb_eq in E. subst k0. destruct (String.eqb k' k); reflexivity.
  - destruct (String.eqb k' k0) eqn:E0.
    + apply String.eqb_eq in E0. subst k0. rewrite String.eqb_sym, E. reflexivity.
    + exact IH.
Qed.

Lemma upsert_keys_In {V} k (v : V) d x : In x (map fst (upsert k v d)) <-> x = k \/ In x (map fst d).
Proof.
  induction d as [|[k0 v0] d IH]; simpl; [intuition|].
  destruct (String.eqb k k0) eqn:E; simpl.
  - apply String.eqb_eq in E. subst k0. intuition.
  - rewrite IH. intuition.
Qed.

Lemma upsert_NoDup {V} k (v : V) d : NoDup (map fst d) -> NoDup (map fst (upsert k v d)).
Proof.
  induction d as [|[k0 v0] d IH]; simpl; intros H; [constructor; [intros []|constructor]|].
  inversion H as [|? ? H1 H2]; subst. destruct (String.eqb k k0) eqn:E; simpl.
  - apply String.eqb_eq in E. subst k0. constructor; assumption.
  - constructor; [|auto]. rewrite upsert_keys_In. intros [->|K]; [rewrite String.eqb_refl in E; discriminate|tauto].
Qed.

Lemma upsert_fresh {V} k (v : V) d : ~ In k (map fst d) -> upsert k v d = d ++ [(k, v)].
Proof.
  induction d as [|[k0 v0] d IH]; simpl; intros H; [reflexivity|].
  destruct (String.eqb k k0) eqn:E.
  - apply String.eqb_eq in E. subst k0. tauto.
  - rewrite IH by tauto. reflexivity.
Qed.

Lemma fold_upsert_id {V} (a : list (string * V)) : forall d,
  NoDup (map fst (d ++ a)) -> fold_left (fun d kv => upsert (fst kv) (snd kv) d) a d = d ++ a.
Proof.
  induction a as [|[k v] a IH]; intros d H; simpl; [rewrite app_nil_r; reflexivity|].
  rewrite upsert_fresh.
  - rewrite IH; rewrite <- app_assoc; [reflexivity|exact H].
  - rewrite map_app in H. simpl in H. apply NoDup_remove in H. destruct H as [_ H]. intros K. apply H.
    apply in_or_app. left; exact K.
Qed.

Definition adj_of (g : graph) (u : string) : adj := match assoc u g with Some a => a | None => [] end.

Lemma get_edge_adj g u v : get_edge g u v = assoc v (adj_of g u).
Proof. unfold get_edge, adj_of. destruct (assoc u g); reflexivity. Qed.

Lemma assoc_app_none {B} k (a b : list (string * B)) : assoc k a = None -> assoc k (a ++ b) = assoc k b.
Proof. induction a as [|[k0 v0] a IH]; simpl; [reflexivity|]. destruct (String.eqb k k0); [discriminate|auto]. Qed.
Lemma assoc_app_some {B} k (a b : list (string * B)) v : assoc k a = Some v -> assoc k (a ++ b) = Some v.
Proof. induction a as [|[k0 v0] a IH]; simpl; [discriminate|]. destruct (String.eqb k k0); [auto|auto]. Qed.

Lemma adj_of_add_node g n u : adj_of (add_node g n) u = adj_of g u.
Proof.
  unfold add_node. destruct (assoc n g) eqn:E; [reflexivity|]. unfold adj_of.
  destruct (assoc u g) eqn:Eu; [erewrite assoc_app_some by exact Eu; reflexivity|].
  rewrite assoc_app_none by exact Eu. simpl. destruct (String.eqb u n); reflexivity.
Qed.

Lemma adj_of_add_edge g u v e w :
  adj_of (add_edge g u v e) w = if String.eqb w u then upsert v e (adj_of g u) else adj_of g w.
Proof.
  assert (Ea : add_edge g u v e = upsert u (upsert v e (adj_of (add_node (add_node g u) v) u))
                                           (add_node (add_node g u) v)) by reflexivity.
  rewrite Ea, !adj_of_add_node. clear Ea. unfold adj_of at 1. rewrite assoc_upsert. destruct (String.eqb w u) eqn:E; [reflexivity|].
  change (adj_of (add_node (add_node g u) v) w = adj_of g w). rewrite !adj_of_add_node. reflexivity.
Qed.

Lemma adj_of_set2 u v e d w :
  adj_of (set2 u v e d) w = if String.eqb w u then upsert v e (adj_of d u) else adj_of d w.
Proof.
  change (set2 u v e d) with (upsert u (upsert v e (adj_of d u)) d). unfold adj_of at 1. rewrite assoc_upsert.
  destruct (String.eqb w u); reflexivity.
Qed.

(** ** foldM *)
Lemma foldM_app {A B} (f : A -> B -> res A) a l m : foldM f a (l ++ m) = (a' <- foldM f a l ;; foldM f a' m).
Proof. revert a; induction l as [|b l IH]; intros a; simpl; [reflexivity|]. destruct (f a b); simpl; auto. Qed.
Lemma foldM_flat {A B C} (f : A -> C -> res A) (h : B -> list C) a l :
  foldM (fun a b => foldM f a (h b)) a l = foldM f a (flat_map h l).
Proof.
  revert a; induction l as [|b l IH]; intros a; simpl; [reflexivity|]. rewrite foldM_app.
  destruct (foldM f a (h b)); simpl; auto.
Qed.
Lemma foldM_map {A B C} (f : A -> C -> res A) (h : B -> C) a l :
  foldM (fun a b => f a (h b)) a l = foldM f a (map h l).
Proof. revert a; induction l as [|b l IH]; intros a; simpl; [reflexivity|]. destruct (f a (h b)); simpl; auto. Qed.

(** ** One view *)

(** What identifier [i] of [v] offers towards [w]: nothing, an error or an edge. *)
Definition candidate (vs : list gview) (v : string) (i : jident) (w : string) : option (res edge) :=
  if negb (String.eqb w v) && allowed_join (ji_only_join i) w then
    match find (fun x => String.eqb (gv_name x) w) vs with
    | None => Some (Err AccessDenied)
    | Some wv =>
        match find (fun j => String.eqb (ji_name j) (ji_name i)) (gv_ids wv) with
        | None => Some (Err AttributeError)
        | Some j =>
            if negb (allowed_join (ji_only_join j) v) then None
            else match identifier_to_join i v j w with
                 | Err x => Some (Err x)
                 | Ok e => if is_fanout (e_rel e) && negb (mem w (ji_fanouts i)) then None else Some (Ok e)
                 end
        end
    end
  else None.

Definition improve (a : adj) (w : string) (e : edge) : adj :=
  match assoc w a with
  | Some old => if preference (e_rel e) <? preference (e_rel old) then upsert w e a else a
  | None => upsert w e a
  end.
Definition cand_step (a : adj) (c : string * option (res edge)) : res adj :=
  match snd c with
  | None => Ok a
  | Some (Err x) => Err x
  | Some (Ok e) => Ok (improve a (fst c) e)
  end.

Definition same_but (v : string) (g g' : graph) : Prop := forall u, u <> v -> adj_of g' u = adj_of g u.

Lemma add_identifier_join_step vs v i g w :
  match add_identifier_join vs v i g w with
  | Ok g' => cand_step (adj_of g v) (w, candidate vs v i w) = Ok (adj_of g' v) /\ same_but v g g'
  | Err x => cand_step (adj_of g v) (w, candidate vs v i w) = Err x
  end.
Proof.
  unfold add_identifier_join, candidate, cand_step. simpl.
  destruct (negb (String.eqb w v) && allowed_join (ji_only_join i) w); [|split; [reflexivity|intros u _; reflexivity]].
  destruct (find _ vs) as [wv|]; [|reflexivity].
  destruct (find _ (gv_ids wv)) as [j|]; [|reflexivity].
  destruct (negb (allowed_join (ji_only_join j) v)); [split; [reflexivity|intros u _; reflexivity]|].
  destruct (identifier_to_join i v j w) as [e|x]; simpl; [|reflexivity].
  destruct (is_fanout (e_rel e) && negb (mem w (ji_fanouts i))); [split; [reflexivity|intros u _; reflexivity]|].
  rewrite get_edge_adj. unfold improve. destruct (assoc w (adj_of g v)) as [old|].
  - destruct (preference (e_rel e) <? preference (e_rel old)).
    + split; [rewrite adj_of_add_edge, String.eqb_refl; reflexivity|]. intros u Hu.
      rewrite adj_of_add_edge. apply String.eqb_neq in Hu. rewrite Hu. reflexivity.
    + split; [reflexivity|intros u _; reflexivity].
  - split; [rewrite adj_of_add_edge, String.eqb_refl; reflexivity|]. intros u Hu.
    rewrite adj_of_add_edge. apply String.eqb_neq in Hu. rewrite Hu. reflexivity.
Qed.

Definition cands (vs : list gview) (v : gview) : list (string * option (res edge)) :=
  flat_map (fun i => map (fun w => (w, candidate vs (gv_name v) i w)) (identifier_map vs (ji_name i))) (gv_ids v).

Lemma inner_loop vs v i ws : forall g,
  match foldM (add_identifier_join vs v i) g ws with
  | Ok g' => foldM cand_step (adj_of g v) (map (fun w => (w, candidate vs v i w)) ws) = Ok (adj_of g' v) /\ same_but v g g'
  | Err x => foldM cand_step (adj_of g v) (map (fun w => (w, candidate vs v i w)) ws) = Err x
  end.
Proof.
  induction ws as [|w ws IH]; intros g; cbn [foldM map]; [split; [reflexivity|intros u _; reflexivity]|].
  assert (K := add_identifier_join_step vs v i g w). destruct (add_identifier_join vs v i g w) as [g1|x]; cbn [bind].
  - destruct K as [K1 K2]. rewrite K1. cbn [bind]. specialize (IH g1).
    destruct (foldM (add_identifier_join vs v i) g1 ws) as [g2|x]; [|exact IH].
    destruct IH as [IH1 IH2]. split; [exact IH1|]. intros u Hu. rewrite IH2, K2 by exact Hu. reflexivity.
  - rewrite K. reflexivity.
Qed.

Lemma outer_loop vs v ids : forall g,
  match foldM (fun g i => foldM (add_identifier_join vs v i) g (identifier_map vs (ji_name i))) g ids with
  | Ok g' => foldM cand_step (adj_of g v)
               (flat_map (fun i => map (fun w => (w, candidate vs v i w)) (identifier_map vs (ji_name i))) ids)
             = Ok (adj_of g' v) /\ same_but v g g'
  | Err x => foldM cand_step (adj_of g v)
               (flat_map (fun i => map (fun w => (w, candidate vs v i w)) (identifier_map vs (ji_name i))) ids)
             = Err x
  end.
Proof.
  induction ids as [|i ids IH]; intros g; cbn [foldM flat_map]; [split; [reflexivity|intros u _; reflexivity]|].
  rewrite foldM_app. assert (K := inner_loop vs v i (identifier_map vs (ji_name i)) g).
  destruct (foldM (add_identifier_join vs v i) g (identifier_map vs (ji_name i))) as [g1|x]; cbn [bind].
  - destruct K as [K1 K2]. rewrite K1. cbn [bind]. specialize (IH g1).
    destruct (foldM _ g1 ids) as [g2|x]; [|exact IH].
    destruct IH as [IH1 IH2]. split; [exact IH1|]. intros u Hu. rewrite IH2, K2 by exact Hu. reflexivity.
  - rewrite K. reflexivity.
Qed.

Lemma ref_loop v (l : adj) : forall g,
  adj_of (fold_left (fun g we => add_edge g v (fst we) (snd we)) l g) v
    = fold_left (fun a kv => upsert (fst kv) (snd kv) a) l (adj_of g v) /\
  same_but v g (fold_left (fun g we => add_edge g v (fst we) (snd we)) l g).
Proof.
  induction l as [|[w e] l IH]; intros g; cbn [fold_left fst snd]; [split; [reflexivity|intros u _; reflexivity]|].
  destruct (IH (add_edge g v w e)) as [H1 H2]. split.
  - rewrite H1, adj_of_add_edge, String.eqb_refl. reflexivity.
  - intros u Hu. rewrite H2 by exact Hu. rewrite adj_of_add_edge. apply String.eqb_neq in Hu. rewrite Hu. reflexivity.
Qed.

(** The out-edges of one view as a function of the declarations. *)
Definition view_adj (vs : list gview) (v : gview) : res adj :=
  foldM cand_step (adj_of (reference_map vs) (gv_name v)) (cands vs v).

Definition adj_NoDup (g : graph) : Prop := forall u, NoDup (map fst (adj_of g u)).

Lemma reference_map_NoDup vs : adj_NoDup (reference_map vs).
Proof.
  unfold reference_map. assert (G : forall d, adj_NoDup d -> adj_NoDup (fold_left (fun d v => fold_left (reference_step v) (gv_ids v) d) vs d)).
  { induction vs as [|v vs IH]; simpl; intros d Hd; [exact Hd|]. apply IH. clear IH.
    revert d Hd. induction (gv_ids v) as [|i l IHl]; simpl; intros d Hd; [exact Hd|]. apply IHl.
    assert (S2 : forall a b e d0, adj_NoDup d0 -> adj_NoDup (set2 a b e d0)).
    { intros a b e d0 H0 u. rewrite adj_of_set2. destruct (String.eqb u a); [apply upsert_NoDup; apply H0|apply H0]. }
    unfold reference_step. destruct (is_join_type (ji_type i)); [|exact Hd].
    destruct (is_fanout (invert (ji_rel i))); auto. }
  apply G. intros u. constructor.
Qed.

Lemma add_view_spec vs g v :
  adj_of g (gv_name v) = [] ->
  match add_view vs (reference_map vs) g v with
  | Ok g' => view_adj vs v = Ok (adj_of g' (gv_name v)) /\ same_but (gv_name v) g g'
  | Err x => view_adj vs v = Err x
  end.
Proof.
  intros H0. unfold view_adj, cands.
  assert (Ea : add_view vs (reference_map vs) g v =
    foldM (fun g i => foldM (add_identifier_join vs (gv_name v) i) g (identifier_map vs (ji_name i)))
      (fold_left (fun g we => add_edge g (gv_name v) (fst we) (snd we))
         (adj_of (reference_map vs) (gv_name v)) (add_node g (gv_name v))) (gv_ids v)) by reflexivity.
  rewrite Ea. clear Ea.
  destruct (ref_loop (gv_name v) (adj_of (reference_map vs) (gv_name v)) (add_node g (gv_name v))) as [R1 R2].
  set (g1 := fold_left _ _ _) in *. assert (K := outer_loop vs (gv_name v) (gv_ids v) g1).
  rewrite R1 in K. rewrite adj_of_add_node, H0 in K. rewrite (fold_upsert_id _ []) in K by apply reference_map_NoDup.
  simpl app in K. destruct (foldM _ g1 (gv_ids v)) as [g2|x]; [|exact K].
  destruct K as [K1 K2]. split; [exact K1|]. intros u Hu. rewrite K2, R2 by exact Hu. apply adj_of_add_node.
Qed.

Lemma build_loop_ok vs todo : forall seen g g',
  build_loop vs (reference_map vs) todo seen g = Ok g' ->
  (forall v, In v todo -> adj_of g (gv_name v) = []) ->
  NoDup (map gv_name todo) /\ (forall v, In v todo -> ~ In (gv_name v) seen) /\
  (forall v, In v todo -> view_adj vs v = Ok (adj_of g' (gv_name v))) /\
  (forall u, ~ In u (map gv_name todo) -> adj_of g' u = adj_of g u).
Proof.
  induction todo as [|v todo IH]; simpl; intros seen g g' H H0.
  - injection H as <-. repeat split; try (intros ? []); try constructor.
  - destruct (mem (gv_name v) seen) eqn:Em; [discriminate|]. apply mem_false in Em.
    apply bind_ok in H. destruct H as (g1 & H1 & H). assert (K := add_view_spec vs g v (H0 v (or_introl eq_refl))).
    rewrite H1 in K. destruct K as [K1 K2].
    assert (Hns : forall w, In w todo -> gv_name w <> gv_name v).
    { assert (Hv : In (gv_name v) (gv_name v :: seen)) by (left; reflexivity).
      clear - H Hv. revert H Hv. generalize (gv_name v :: seen) as s.
      intros s H Hv. revert s g1 Hv H. induction todo as [|w todo IHt]; simpl; intros s g1 Hv H x Hx; [destruct Hx|].
      destruct (mem (gv_name w) s) eqn:Em; [discriminate|]. apply mem_false in Em.
      destruct Hx as [<-|Hx]; [intros E; apply Em; rewrite E; exact Hv|].
      apply bind_ok in H. destruct H as (g2 & _ & H). apply (IHt (gv_name w :: s) g2); [right; exact Hv|exact H|exact Hx]. }
    destruct (IH _ _ _ H) as (I1 & I2 & I3 & I4).
    { intros w Hw. rewrite K2 by (apply Hns; exact Hw). apply H0. right; exact Hw. }
    assert (Hnv : ~ In (gv_name v) (map gv_name todo)).
    { intros Hin. apply in_map_iff in Hin. destruct Hin as (w & Ew & Hw). exact (Hns w Hw Ew). }
    split; [constructor; assumption|]. split; [|split].
    + intros w [<-|Hw]; [exact Em|]. intros K. apply (I2 w Hw). right; exact K.
    + intros w [<-|Hw]; [|apply I3; exact Hw]. rewrite I4 by exact Hnv. exact K1.
    + intros u Hu. rewrite I4 by tauto. apply K2. intros ->. tauto.
Qed.

Lemma build_loop_err vs todo : forall seen g x,
  build_loop vs (reference_map vs) todo seen g = Err x ->
  (forall v, In v todo -> adj_of g (gv_name v) = []) -> NoDup (map gv_name todo) ->
  (forall v, In v todo -> ~ In (gv_name v) seen) ->
  exists v, In v todo /\ view_adj vs v = Err x.
Proof.
  induction todo as [|v todo IH]; simpl; intros seen g x H H0 HN HS; [discriminate|].
  destruct (mem (gv_name v) seen) eqn:Em; [apply mem_In in Em; destruct (HS v (or_introl eq_refl) Em)|].
  assert (K := add_view_spec vs g v (H0 v (or_introl eq_refl))).
  inversion HN as [|? ? HN1 HN2]; subst.
  destruct (add_view vs (reference_map vs) g v) as [g1|y]; simpl in H.
  - destruct K as [_ K2]. assert (Hne : forall w, In w todo -> gv_name w <> gv_name v).
    { intros w Hw E. apply HN1. rewrite <- E. apply in_map. exact Hw. }
    destruct (IH _ _ _ H) as (w & Hw & E); auto.
    + intros w Hw. rewrite K2 by auto. auto.
    + intros w Hw [E|E]; [symmetry in E; exact (Hne w Hw E)|exact (HS w (or_intror Hw) E)].
    + exists w. auto.
  - injection H as ->. exists v. auto.
Qed.

Lemma build_ok vs g :
  build vs = Ok g ->
  NoDup (map gv_name vs) /\ (forall v, In v vs -> view_adj vs v = Ok (adj_of g (gv_name v))) /\
  (forall u, ~ In u (map gv_name vs) -> adj_of g u = []).
Proof.
  intros H. destruct (build_loop_ok _ _ _ _ _ H) as (H1 & _ & H3 & H4); [reflexivity|].
  split; [exact H1|]. split; [exact H3|]. intros u Hu. rewrite H4 by exact Hu. reflexivity.
Qed.
Lemma build_err vs x : build vs = Err x -> NoDup (map gv_name vs) -> exists v, In v vs /\ view_adj vs v = Err x.
Proof.
  intros H HN. apply (build_loop_err vs vs [] [] x H); auto.
Qed.

(** ** The candidates *)
Lemma cand_fold_err l : forall a x, foldM cand_step a l = Err x -> exists w, In (w, Some (Err x)) l.
Proof.
  induction l as [|[w [[e|y]|]] l IH]; intros a x H; simpl in H; [discriminate| | |].
  - destruct (IH _ _ H) as (w' & Hw). exists w'. right; exact Hw.
  - injection H as ->. exists w. left; reflexivity.
  - destruct (IH _ _ H) as (w' & Hw). exists w'. right; exact Hw.
Qed.

Definition better (o : option edge) (e : edge) : option edge :=
  match o with
  | None => Some e
  | Some old => if preference (e_rel e) <? preference (e_rel old) then Some e else Some old
  end.
Definition offers (l : list (string * option (res edge))) (w : string) : list edge :=
  flat_map (fun c => match c with (w', Some (Ok e)) => if String.eqb w w' then [e] else [] | _ => [] end) l.

Lemma assoc_improve a w e x :
  assoc x (improve a w e) = if String.eqb x w then better (assoc w a) e else assoc x a.
Proof.
  unfold improve, better. destruct (assoc w a) as [old|] eqn:E.
  - destruct (preference (e_rel e) <? preference (e_rel old)); [apply assoc_upsert|].
    destruct (String.eqb x w) eqn:Ex; [apply String.eqb_eq in Ex; subst; exact E|reflexivity].
  - apply assoc_upsert.
Qed.

Lemma cand_fold_ok l : forall a a', foldM cand_step a l = Ok a' ->
  (forall w x, ~ In (w, Some (Err x)) l) /\
  forall w, assoc w a' = fold_left better (offers l w) (assoc w a).
Proof.
  induction l as [|[w0 [[e|y]|]] l IH]; intros a a' H; simpl in H.
  - injection H as <-. split; [intros w x []|reflexivity].
  - destruct (IH _ _ H) as [I1 I2]. split.
    + intros w x [K|K]; [discriminate|exact (I1 _ _ K)].
    + intros w. simpl. rewrite I2, assoc_improve.
      destruct (String.eqb w w0) eqn:E; [|reflexivity]. apply String.eqb_eq in E. subst. reflexivity.
  - discriminate.
  - destruct (IH _ _ H) as [I1 I2]. split.
    + intros w x [K|K]; [discriminate|exact (I1 _ _ K)].
    + intros w. simpl. apply I2.
Qed.

Lemma better_fold_Some es : forall o e, fold_left better es o = Some e ->
  (o = Some e \/ In e es) /\
  (forall e', o = Some e' \/ In e' es -> preference (e_rel e) <= preference (e_rel e')) /\
  (forall e0, o = Some e0 -> (forall e', In e' es -> preference (e_rel e0) <= preference (e_rel e')) -> e = e0).
Proof.
  induction es as [|e1 es IH]; simpl; intros o e H.
  - subst o. split; [left; reflexivity|]. split; [intros e' [K|[]]; injection K as <-; lia|].
    intros e0 K _. congruence.
  - destruct (IH _ _ H) as (I1 & I2 & I3). split; [|split].
    + destruct I1 as [I1|I1]; [|right; right; exact I1]. destruct o as [old|]; simpl in I1.
      * destruct (preference (e_rel e1) <? preference (e_rel old)); injection I1 as <-; auto.
      * injection I1 as <-. auto.
    + assert (Hle : forall e2, better o e1 = Some e2 -> preference (e_rel e2) <= preference (e_rel e1) /\
                     (forall old, o = Some old -> preference (e_rel e2) <= preference (e_rel old))).
      { intros e2 K. destruct o as [old|]; simpl in K.
        - destruct (preference (e_rel e1) <? preference (e_rel old)) eqn:E; injection K as <-.
          + apply Nat.ltb_lt in E. split; [lia|]. intros old' K'. injection K' as <-. lia.
          + apply Nat.ltb_ge in E. split; [lia|]. intros old' K'. injection K' as <-. lia.
        - injection K as <-. split; [lia|intros ? K'; discriminate]. }
      assert (Hb : exists e2, better o e1 = Some e2).
      { destruct o as [old|]; simpl; [destruct (preference (e_rel e1) <? preference (e_rel old))|]; eexists; reflexivity. }
      destruct Hb as (e2 & Hb). destruct (Hle e2 Hb) as [L1 L2]. assert (L3 := I2 e2 (or_introl Hb)).
      intros e' [K|[<-|K]]; [specialize (L2 _ K); lia|lia|apply I2; right; exact K].
    + intros e0 -> Hmin. apply I3; [|intros; apply Hmin; right; assumption]. simpl.
      assert (M := Hmin e1 (or_introl eq_refl)).
      destruct (preference (e_rel e1) <? preference (e_rel e0)) eqn:E; [apply Nat.ltb_lt in E; lia|reflexivity].
Qed.
Lemma better_fold_None es o : fold_left better es o = None <-> o = None /\ es = [].
Proof.
  split.
  - revert o; induction es as [|e es IH]; simpl; intros o H; [auto|]. apply IH in H. destruct H as [H _].
    destruct o as [old|]; simpl in H; [destruct (preference (e_rel e) <? preference (e_rel old))|]; discriminate.
  - intros [-> ->]. reflexivity.
Qed.

Lemma offers_In l w e : In e (offers l w) <-> In (w, Some (Ok e)) l.
Proof.
  unfold offers. rewrite in_flat_map. split.
  - intros ([w' [[e'|y]|]] & Hin & H); try destruct H.
    destruct (String.eqb w w') eqn:E; [|destruct H]. destruct H as [<-|[]]. apply String.eqb_eq in E. subst. exact Hin.
  - intros H. exists (w, Some (Ok e)). split; [exact H|]. rewrite String.eqb_refl. left; reflexivity.
Qed.

Lemma identifier_map_In vs n w :
  In w (identifier_map vs n) <->
  exists v i, In v vs /\ gv_name v = w /\ In i (gv_ids v) /\ ji_name i = n /\ ji_type i <> TJoin.
Proof.
  unfold identifier_map. rewrite in_flat_map. split.
  - intros (v & Hv & H). apply in_flat_map in H. destruct H as (i & Hi & H).
    destruct (negb (is_join_type (ji_type i)) && String.eqb (ji_name i) n) eqn:E; [|destruct H].
    destruct H as [<-|[]]. apply andb_true_iff in E. destruct E as [E1 E2]. apply String.eqb_eq in E2.
    exists v, i. repeat split; auto. intros K. rewrite K in E1. discriminate.
  - intros (v & i & Hv & <- & Hi & <- & Ht). exists v. split; [exact Hv|]. apply in_flat_map. exists i. split; [exact Hi|].
    rewrite String.eqb_refl. destruct (ji_type i); simpl; try (left; reflexivity). congruence.
Qed.

Lemma derive_spec a b r : derive_relationship a b = Ok r <-> related a b r.
Proof.
  split.
  - destruct a, b; simpl; intros H; try discriminate; injection H as <-; constructor.
  - destruct 1; reflexivity.
Qed.
Lemma derive_err a b x : derive_relationship a b = Err x <-> x = QueryError /\ forall r, ~ related a b r.
Proof.
  split.
  - intros H. split; [destruct a, b; simpl in H; congruence|]. intros r K. apply derive_spec in K. congruence.
  - intros [-> H]. destruct (derive_relationship a b) as [r|y] eqn:E; [apply derive_spec in E; destruct (H r E)|].
    destruct a, b; simpl in E; congruence.
Qed.
Lemma allowed_spec o v : allowed_join o v = true <-> admits o v.
Proof.
  unfold allowed_join, admits. destruct o as [|x o]; [intuition|]. rewrite mem_In. split; [auto|intros [K|K]; [discriminate|exact K]].
Qed.
Lemma is_fanout_spec r : is_fanout r = true <-> multiplies r.
Proof. unfold multiplies. destruct r; simpl; split; intros H; try discriminate; auto; destruct H; discriminate. Qed.

Lemma find_named_view vs w v : NoDup (map gv_name vs) ->
  (find (fun x => String.eqb (gv_name x) w) vs = Some v <-> view_named vs w v).
Proof.
  intros HN. split.
  - intros H. apply find_some in H. destruct H as [H1 H2]. apply String.eqb_eq in H2. split; auto.
  - intros [H1 <-]. induction vs as [|x vs IH]; [destruct H1|]. simpl. inversion HN as [|? ? N1 N2]; subst.
    destruct H1 as [->|H1]; [rewrite String.eqb_refl; reflexivity|].
    destruct (String.eqb (gv_name x) (gv_name v)) eqn:E; [|auto]. apply String.eqb_eq in E.
    exfalso. apply N1. rewrite E. apply in_map. exact H1.
Qed.
Lemma find_named_id v n i : find (fun j => String.eqb (ji_name j) n) (gv_ids v) = Some i <-> first_named v n i.
Proof.
  unfold first_named. split.
  - intros H. apply find_split in H. destruct H as (pre & post & E & Hi & Hp).
    exists pre, post. apply String.eqb_eq in Hi. split; [exact E|]. split; [exact Hi|].
    intros K. apply in_map_iff in K. destruct K as (j & Ej & Kj). specialize (Hp j Kj). simpl in Hp.
    rewrite Ej, String.eqb_refl in Hp. discriminate.
  - intros (pre & post & E & Hi & Hp). rewrite E. clear E. induction pre as [|x pre IH]; simpl.
    + apply String.eqb_eq in Hi. rewrite Hi. reflexivity.
    + simpl in Hp. destruct (String.eqb (ji_name x) n) eqn:Ex; [apply String.eqb_eq in Ex; tauto|]. apply IH. tauto.
Qed.

(** The condition under which [candidate] is neither None nor an internal error. *)
Lemma cands_In vs v w c : In (w, c) (cands vs v) <->
  exists i, In i (gv_ids v) /\ In w (identifier_map vs (ji_name i)) /\ c = candidate vs (gv_name v) i w.
Proof.
  unfold cands. rewrite in_flat_map. split.
  - intros (i & Hi & H). apply in_map_iff in H. destruct H as (w' & E & Hw). injection E as <- <-. exists i. auto.
  - intros (i & Hi & Hw & ->). exists i. split; [exact Hi|]. apply in_map_iff. exists w. auto.
Qed.

Lemma candidate_ok vs v i w e :
  NoDup (map gv_name vs) -> In v vs -> In i (gv_ids v) -> In w (identifier_map vs (ji_name i)) ->
  (candidate vs (gv_name v) i w = Some (Ok e) <->
   exists j, identifier_join vs (gv_name v) w (e_rel e) i j /\ identifier_to_join i (gv_name v) j w = Ok e).
Proof.
  intros HN Hv Hi Hw. unfold candidate. split.
  - destruct (negb (String.eqb w (gv_name v)) && allowed_join (ji_only_join i) w) eqn:E1; [|discriminate].
    apply andb_true_iff in E1. destruct E1 as [E1 E2]. rewrite negb_true_iff, String.eqb_neq in E1.
    destruct (find _ vs) as [wv|] eqn:Ef; [|discriminate]. destruct (find _ (gv_ids wv)) as [j|] eqn:Ej; [|discriminate].
    destruct (negb (allowed_join (ji_only_join j) (gv_name v))) eqn:E3; [discriminate|].
    destruct (identifier_to_join i (gv_name v) j w) as [e'|y] eqn:E4; [|discriminate].
    destruct (is_fanout (e_rel e') && negb (mem w (ji_fanouts i))) eqn:E5; [discriminate|].
    intros H. injection H as ->. exists j. split; [|exact E4].
    apply (find_named_view vs w wv HN) in Ef. apply find_named_id in Ej.
    split; [|split].
    + split; [congruence|]. exists v, wv. split; [split; auto|]. split; [exact Ef|]. split; [exact Hi|].
      split; [exact Ej|]. split.
      * apply identifier_map_In in Hw. destruct Hw as (w0 & k & Hw0 & Hn & Hk & Hkn & Hkt).
        destruct Ef as [Ef1 Ef2]. assert (w0 = wv).
        { assert (A1 : find (fun x => String.eqb (gv_name x) w) vs = Some w0) by (apply find_named_view; [exact HN|split; auto]).
          assert (A2 : find (fun x => String.eqb (gv_name x) w) vs = Some wv) by (apply find_named_view; [exact HN|split; auto]).
          congruence. }
        subst w0. exists k. auto.
      * split; apply allowed_spec; [exact E2|]. rewrite negb_false_iff in E3. exact E3.
    + unfold identifier_to_join in E4. apply bind_ok in E4. destruct E4 as (r & E4 & K). injection K as <-. simpl.
      apply derive_spec. exact E4.
    + intros Hm. apply is_fanout_spec in Hm. rewrite Hm in E5. simpl in E5. rewrite negb_false_iff in E5.
      apply mem_In. exact E5.
  - intros (j & ((Hne & va & vb & [Ha1 Ha2] & Hb & Hia & Hj & Hk & A1 & A2) & Hr & Hf) & He).
    assert (E1 : String.eqb w (gv_name v) = false) by (apply String.eqb_neq; congruence).
    apply allowed_spec in A1, A2. rewrite E1, A1. simpl.
    apply (find_named_view vs w vb HN) in Hb. rewrite Hb. apply find_named_id in Hj. rewrite Hj, A2. simpl.
    rewrite He. destruct (is_fanout (e_rel e)) eqn:E; simpl; [|reflexivity].
    apply is_fanout_spec in E. specialize (Hf E). apply mem_In in Hf. rewrite Hf. reflexivity.
Qed.

Lemma candidate_err vs v i w x :
  NoDup (map gv_name vs) -> In v vs -> In i (gv_ids v) -> In w (identifier_map vs (ji_name i)) ->
  (candidate vs (gv_name v) i w = Some (Err x) <->
   x = QueryError /\ exists j, meets vs (gv_name v) w i j /\ forall r, ~ related (ji_type i) (ji_type j) r).
Proof.
  intros HN Hv Hi Hw. pose proof (proj1 (identifier_map_In vs (ji_name i) w) Hw) as (w0 & k & Hw0 & Hn & Hk & Hkn & Hkt).
  assert (Ef : find (fun y => String.eqb (gv_name y) w) vs = Some w0) by (apply find_named_view; [exact HN|split; auto]).
  unfold candidate. split.
  - destruct (negb (String.eqb w (gv_name v)) && allowed_join (ji_only_join i) w) eqn:E1; [|discriminate].
    apply andb_true_iff in E1. destruct E1 as [E1 E2]. rewrite negb_true_iff, String.eqb_neq in E1.
    rewrite Ef. destruct (find _ (gv_ids w0)) as [j|] eqn:Ej.
    + destruct (negb (allowed_join (ji_only_join j) (gv_name v))) eqn:E3; [discriminate|].
      destruct (identifier_to_join i (gv_name v) j w) as [e'|y] eqn:E4.
      * destruct (is_fanout (e_rel e') && negb (mem w (ji_fanouts i))) eqn:E5; discriminate.
      * intros H. injection H as ->. unfold identifier_to_join in E4. apply bind_err in E4.
        destruct E4 as [E4|(r & _ & E4)]; [|discriminate]. apply derive_err in E4. destruct E4 as [-> E4].
        split; [reflexivity|]. exists j. split; [|exact E4]. apply find_named_id in Ej.
        split; [congruence|]. exists v, w0. split; [split; auto|]. split; [split; auto|]. split; [exact Hi|].
        split; [exact Ej|]. split; [exists k; auto|]. split; apply allowed_spec; [exact E2|].
        rewrite negb_false_iff in E3. exact E3.
    + intros _. exfalso. apply (find_none _ _ Ej) in Hk. simpl in Hk. rewrite Hkn, String.eqb_refl in Hk. discriminate.
  - intros (-> & j & (Hne & va & vb & _ & Hb & _ & Hj & _ & A1 & A2) & Hr).
    assert (E1 : String.eqb w (gv_name v) = false) by (apply String.eqb_neq; congruence).
    apply allowed_spec in A1, A2. rewrite E1, A1. simpl.
    apply (find_named_view vs w vb HN) in Hb. rewrite Hb. apply find_named_id in Hj. rewrite Hj, A2. simpl.
    unfold identifier_to_join. rewrite (proj2 (derive_err _ _ _) (conj eq_refl Hr)). reflexivity.
Qed.

(** ** Explicit joins *)
Definition as_edge (d : rel * string) : edge := explicit_edge (fst d) (snd d).
Definition put (d : graph) (x : string * string * (rel * string)) : graph :=
  set2 (fst (fst x)) (snd (fst x)) (as_edge (snd x)) d.

Lemma reference_map_eq vs : reference_map vs = fold_left put (all_declarations vs) [].
Proof.
  unfold reference_map, all_declarations. generalize (@nil (string * adj)) as d.
  induction vs as [|v vs IH]; intros d; simpl; [reflexivity|]. rewrite IH, fold_left_app. f_equal. clear IH.
  revert d. induction (gv_ids v) as [|i l IHl]; intros d; simpl; [reflexivity|].
  rewrite IHl, fold_left_app. f_equal. unfold reference_step, declarations.
  destruct (ji_type i); simpl; try reflexivity. destruct (ji_rel i); simpl; reflexivity.
Qed.

Fixpoint last_decl (l : list (string * string * (rel * string))) (a b : string) (acc : option (rel * string)) : option (rel * string) :=
  match l with
  | [] => acc
  | ((a', b'), d) :: r => last_decl r a b (if String.eqb a a' && String.eqb b b' then Some d else acc)
  end.

Lemma fold_put_assoc l : forall d a b acc,
  assoc b (adj_of d a) = option_map as_edge acc ->
  assoc b (adj_of (fold_left put l d) a) = option_map as_edge (last_decl l a b acc).
Proof.
  induction l as [|[[a' b'] x] l IH]; intros d a b acc H; simpl; [exact H|]. apply IH. unfold put. simpl.
  rewrite adj_of_set2. destruct (String.eqb a a') eqn:Ea; simpl; [|exact H].
  apply String.eqb_eq in Ea. subst a'. rewrite assoc_upsert. destruct (String.eqb b b'); [reflexivity|exact H].
Qed.

Lemma last_decl_spec l : forall a b acc d,
  last_decl l a b acc = Some d <->
  (exists pre post, l = pre ++ (a, b, d) :: post /\ forall x, ~ In (a, b, x) post) \/
  (acc = Some d /\ forall x, ~ In (a, b, x) l).
Proof.
  induction l as [|[[a' b'] x] l IH]; intros a b acc d; simpl.
  - split; [intros ->; right; split; [reflexivity|intros ? []]|]. intros [(pre & post & E & _)|[H _]]; [destruct pre; discriminate|exact H].
  - rewrite IH. destruct (String.eqb a a' && String.eqb b b') eqn:E.
    + apply andb_true_iff in E. destruct E as [E1 E2]. apply String.eqb_eq in E1, E2. subst a' b'. split.
      * intros [(pre & post & -> & Hp)|[H Hp]].
        -- left. exists ((a, b, x) :: pre), post. split; [reflexivity|exact Hp].
        -- injection H as ->. left. exists [], l. split; [reflexivity|exact Hp].
      * intros [(pre & post & E & Hp)|[H Hp]].
        -- destruct pre as [|p0 pre]; simpl in E.
           ++ injection E as -> ->. right. split; [reflexivity|exact Hp].
           ++ injection E as <- ->. left. exists pre, post. split; [reflexivity|exact Hp].
        -- exfalso. apply (Hp x). left; reflexivity.
    + assert (Hne : (a', b') <> (a, b)).
      { intros K. injection K as -> ->. rewrite !String.eqb_refl in E. discriminate. }
      split.
      * intros [(pre & post & -> & Hp)|[H Hp]].
        -- left. exists ((a', b', x) :: pre), post. split; [reflexivity|exact Hp].
        -- right. split; [exact H|]. intros y [K|K]; [apply Hne; congruence|exact (Hp y K)].
      * intros [(pre & post & E0 & Hp)|[H Hp]].
        -- destruct pre as [|p0 pre]; simpl in E0.
           ++ exfalso. apply Hne. congruence.
           ++ injection E0 as <- ->. left. exists pre, post. split; [reflexivity|exact Hp].
        -- right. split; [exact H|]. intros y K. exact (Hp y (or_intror K)).
Qed.

Lemma reference_map_spec vs a b e :
  assoc b (adj_of (reference_map vs) a) = Some e <->
  exists r s, explicit_join vs a b r s /\ e = explicit_edge r s.
Proof.
  rewrite reference_map_eq. rewrite (fold_put_assoc _ [] a b None eq_refl).
  destruct (last_decl (all_declarations vs) a b None) as [d|] eqn:E; simpl.
  - destruct d as [r s]. split.
    + intros H. injection H as <-. exists r, s. split; [|reflexivity].
      apply last_decl_spec in E. destruct E as [E|[E _]]; [exact E|discriminate].
    + intros (r' & s' & H & ->). assert (K : last_decl (all_declarations vs) a b None = Some (r', s')).
      { apply last_decl_spec. left. exact H. }
      rewrite E in K. injection K as <- <-. reflexivity.
  - split; [discriminate|]. intros (r' & s' & H & _). exfalso.
    assert (K : last_decl (all_declarations vs) a b None = Some (r', s')) by (apply last_decl_spec; left; exact H).
    congruence.
Qed.

(** ** The finished graph *)
Lemma get_edge_build vs g v w :
  build vs = Ok g -> In v vs ->
  get_edge g (gv_name v) w =
  fold_left better (offers (cands vs v) w) (assoc w (adj_of (reference_map vs) (gv_name v))).
Proof.
  intros H Hv. destruct (build_ok _ _ H) as (HN & H2 & _). specialize (H2 v Hv).
  rewrite get_edge_adj. unfold view_adj in H2. destruct (cand_fold_ok _ _ _ H2) as [_ H3]. apply H3.
Qed.

Definition is_identifier_edge vs a b e : Prop :=
  exists i j, identifier_join vs a b (e_rel e) i j /\ identifier_to_join i a j b = Ok e.
Definition is_explicit_edge vs a b e : Prop :=
  exists r s, explicit_join vs a b r s /\ e = explicit_edge r s.

Lemma offers_spec vs v w e : NoDup (map gv_name vs) -> In v vs ->
  (In e (offers (cands vs v) w) <-> is_identifier_edge vs (gv_name v) w e).
Proof.
  intros HN Hv. rewrite offers_In, cands_In. split.
  - intros (i & Hi & Hw & Hc). symmetry in Hc. apply (candidate_ok vs v i w e HN Hv Hi Hw) in Hc.
    destruct Hc as (j & Hc). exists i, j. exact Hc.
  - intros (i & j & H1 & H2). pose proof H1 as ((Hne & va & vb & [Ha1 Ha2] & [Hb1 Hb2] & Hia & Hj & (k & Hk1 & Hk2 & Hk3) & A1 & A2) & Hr & Hf).
    assert (va = v).
    { assert (B1 : find (fun x => String.eqb (gv_name x) (gv_name v)) vs = Some va) by (apply find_named_view; [exact HN|split; auto]).
      assert (B2 : find (fun x => String.eqb (gv_name x) (gv_name v)) vs = Some v) by (apply find_named_view; [exact HN|split; auto]).
      congruence. }
    subst va. exists i. split; [exact Hia|]. assert (Hw : In w (identifier_map vs (ji_name i))).
    { apply identifier_map_In. exists vb, k. auto. }
    split; [exact Hw|]. symmetry. apply (candidate_ok vs v i w e HN Hv Hia Hw). exists j. auto.
Qed.
