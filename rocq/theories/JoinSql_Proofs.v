(** Lemmas: the join graph with all keys of its edges. *)
From Coq Require Import List String Ascii Bool Arith Lia.
From Verif Require Import PyBase PyStr PySort PyRefs PyReplace PyGraph PyList JoinGraph_Model JoinGraph_Spec JoinGraph_Proofs Subst_Props JoinSql_Model.
Import ListNotations.
Local Open Scope string_scope.
Local Open Scope list_scope.

(** ** Forgetting the other keys gives the graph of JoinGraph_Model *)
Definition vmap {A B} (f : A -> B) (l : list (string * A)) : list (string * B) := map (fun p => (fst p, f (snd p))) l.
Definition erase_adj (a : xadj) : adj := vmap x_edge a.
Definition erase (g : xgraph) : graph := vmap erase_adj g.
Definition rmap {A B} (f : A -> B) (r : res A) : res B := match r with Ok x => Ok (f x) | Err e => Err e end.
Lemma assoc_vmap {A B} (f : A -> B) k l : assoc k (vmap f l) = option_map f (assoc k l).
Proof. induction l as [|[a b] l IH]; cbn; [reflexivity|]. destruct (String.eqb k a); auto. Qed.
Lemma upsert_vmap {A B} (f : A -> B) k v l : vmap f (upsert k v l) = upsert k (f v) (vmap f l).
Proof. induction l as [|[a b] l IH]; cbn; [reflexivity|]. destruct (String.eqb k a); cbn; [reflexivity|]. f_equal. exact IH. Qed.
Lemma vmap_app {A B} (f : A -> B) l m : vmap f (l ++ m) = vmap f l ++ vmap f m.
Proof. apply map_app. Qed.
Lemma erase_node g n : erase (x_add_node g n) = add_node (erase g) n.
Proof. unfold x_add_node, add_node, erase. rewrite assoc_vmap. destruct (assoc n g); cbn [option_map]; [reflexivity|]. rewrite vmap_app. reflexivity. Qed.
Lemma erase_add g u v e o : erase (x_add_edge g u v e o) = add_edge (erase g) u v e.
Proof.
  unfold x_add_edge, add_edge. set (h := x_add_node (x_add_node g u) v). replace (add_node (add_node (erase g) u) v) with (erase h) by (unfold h; now rewrite !erase_node). unfold erase. rewrite upsert_vmap, assoc_vmap. unfold erase_adj at 1. rewrite upsert_vmap. cbn [x_edge].
  destruct (assoc u h); reflexivity.
Qed.
Lemma erase_set2 u v e d : erase (x_set2 u v e d) = set2 u v (x_edge e) (erase d).
Proof. unfold x_set2, set2, erase. rewrite upsert_vmap, assoc_vmap. unfold erase_adj at 1. rewrite upsert_vmap. destruct (assoc u d); reflexivity. Qed.
Lemma erase_edge g u v : get_edge (erase g) u v = option_map x_edge (get_xedge g u v).
Proof. unfold get_edge, get_xedge, erase. rewrite assoc_vmap. destruct (assoc u g); cbn [option_map]; [apply assoc_vmap|reflexivity]. Qed.
Lemma erase_reference vs : erase (x_reference_map vs) = reference_map (map plain_view vs).
Proof.
  unfold x_reference_map, reference_map. change (@nil (string * adj)) with (erase []). generalize (@nil (string * xadj)) as d. induction vs as [|v vs IH]; intros d; cbn [map fold_left]; [reflexivity|]. rewrite IH. f_equal. clear IH.
  cbn [plain_view gv_ids]. revert d. induction (xv_ids v) as [|xi l IH]; intros d; cbn [map fold_left]; [reflexivity|]. rewrite IH. f_equal. unfold x_reference_step, reference_step. cbn [plain_view gv_name].
  destruct (is_join_type (ji_type (xi_id xi))); [|reflexivity]. destruct (is_fanout (invert (ji_rel (xi_id xi)))); rewrite ?erase_set2; reflexivity.
Qed.
Lemma erase_identifier vs v i g w : rmap erase (x_add_identifier_join vs v i g w) = add_identifier_join (map plain_view vs) v i (erase g) w.
Proof.
  unfold x_add_identifier_join, add_identifier_join. destruct (negb (String.eqb w v) && allowed_join (ji_only_join i) w); [|reflexivity]. destruct (find _ (map plain_view vs)) as [wv|]; [|reflexivity].
  destruct (find _ (gv_ids wv)) as [j|]; [|reflexivity]. destruct (negb (allowed_join (ji_only_join j) v)); [reflexivity|]. destruct (identifier_to_join i v j w) as [e|]; [|reflexivity]. cbn [bind].
  destruct (is_fanout (e_rel e) && negb (mem w (ji_fanouts i))); [reflexivity|]. rewrite erase_edge. destruct (get_xedge g v w) as [old|]; cbn [option_map rmap].
  - destruct (Nat.ltb (preference (e_rel e)) (preference (e_rel (x_edge old)))); [rewrite erase_add|]; reflexivity.
  - rewrite erase_add. reflexivity.
Qed.
Lemma rmap_foldM {A B C} (f : A -> C -> res A) (f' : B -> C -> res B) (h : A -> B) l :
  (forall a c, rmap h (f a c) = f' (h a) c) -> forall a, rmap h (foldM f a l) = foldM f' (h a) l.
Proof. intros H. induction l as [|c l IH]; intros a; cbn [foldM]; [reflexivity|]. rewrite <- H. destruct (f a c); cbn [bind rmap]; [apply IH|reflexivity]. Qed.
Lemma erase_view vs g v : rmap erase (x_add_view vs (x_reference_map vs) g v) = add_view (map plain_view vs) (reference_map (map plain_view vs)) (erase g) (plain_view v).
Proof.
  unfold x_add_view, add_view. cbn [plain_view gv_name gv_ids]. set (h := fold_left _ _ (x_add_node g (xv_name v))).
  replace (fold_left (fun g we => add_edge g (xv_name v) (fst we) (snd we)) match assoc (xv_name v) (reference_map (map plain_view vs)) with Some a => a | None => [] end (add_node (erase g) (xv_name v))) with (erase h).
  - apply rmap_foldM. intros a c. apply rmap_foldM. intros a' c'. apply erase_identifier.
  - unfold h. rewrite <- erase_node. rewrite <- erase_reference. unfold erase at 2. rewrite assoc_vmap. generalize (x_add_node g (xv_name v)) as k. destruct (assoc (xv_name v) (x_reference_map vs)) as [a|]; cbn [option_map]; [|reflexivity].
    induction a as [|[b x] a IH]; intros k; cbn [fold_left vmap map fst snd]; [reflexivity|]. rewrite IH, erase_add. reflexivity.
Qed.
Lemma erase_build vs : rmap erase (x_build vs) = build (map plain_view vs).
Proof.
  unfold x_build, build. change (@nil (string * adj)) with (erase []). set (R := x_reference_map vs). assert (RE : R = x_reference_map vs) by reflexivity. clearbody R.
  generalize (@nil string) as seen. generalize (@nil (string * xadj)) as g. assert (G : forall todo g seen, rmap erase (x_build_loop vs R todo seen g) = build_loop (map plain_view vs) (reference_map (map plain_view vs)) (map plain_view todo) seen (erase g)).
  { induction todo as [|v todo IH]; intros g seen; cbn [map x_build_loop build_loop]; [reflexivity|]. cbn [plain_view gv_name]. destruct (mem (xv_name v) seen); [reflexivity|]. rewrite RE in *. rewrite <- erase_view. destruct (x_add_view vs (x_reference_map vs) g v) as [g'|]; cbn [bind rmap]; [apply IH|reflexivity]. }
  intros g seen. apply G.
Qed.

(** ** The other keys of an edge *)
Definition xtra (g : xgraph) (a b : string) : option extra := match get_xedge g a b with Some x => x_extra x | None => None end.
Lemma assoc_app_fresh {B} k (l : list (string * B)) n (v : B) : assoc k (l ++ [(n, v)]) = match assoc k l with Some x => Some x | None => if String.eqb k n then Some v else None end.
Proof. induction l as [|[a b] l IH]; cbn; [reflexivity|]. destruct (String.eqb k a); auto. Qed.
Lemma get_node g n a b : get_xedge (x_add_node g n) a b = get_xedge g a b.
Proof.
  unfold x_add_node. destruct (assoc n g) eqn:N; [reflexivity|]. unfold get_xedge. rewrite assoc_app_fresh. destruct (assoc a g) eqn:A; [reflexivity|]. destruct (String.eqb a n); reflexivity.
Qed.
Lemma get_add g u v e o a b : get_xedge (x_add_edge g u v e o) a b
  = if String.eqb a u && String.eqb b v then Some (XEdge e (match o with Some x => Some x | None => xtra g u v end)) else get_xedge g a b.
Proof.
  unfold x_add_edge. set (h := x_add_node (x_add_node g u) v). assert (H : forall a b, get_xedge h a b = get_xedge g a b) by (intros; unfold h; now rewrite !get_node).
  unfold xtra. rewrite <- (H a b), <- (H u v). clearbody h. clear H. unfold get_xedge. rewrite assoc_upsert. destruct (String.eqb_spec a u) as [->|]; cbn [andb]; [|reflexivity]. rewrite assoc_upsert.
  destruct (String.eqb b v).
  - destruct o; [reflexivity|]. destruct (assoc u h); reflexivity.
  - destruct (assoc u h); reflexivity.
Qed.
Lemma xtra_identifier g u v e a b : xtra (x_add_edge g u v e None) a b = xtra g a b.
Proof. unfold xtra at 1. rewrite get_add. destruct (String.eqb_spec a u) as [->|]; cbn [andb]; [destruct (String.eqb_spec b v) as [->|]; reflexivity|reflexivity]. Qed.
Lemma xtra_explicit g u v e k a b : xtra (x_add_edge g u v e (Some k)) a b = if String.eqb a u && String.eqb b v then Some k else xtra g a b.
Proof. unfold xtra at 1. rewrite get_add. destruct (String.eqb a u && String.eqb b v); reflexivity. Qed.
Lemma xtra_step vs v i g w g' a b : x_add_identifier_join vs v i g w = Ok g' -> xtra g' a b = xtra g a b.
Proof.
  unfold x_add_identifier_join. destruct (negb (String.eqb w v) && allowed_join (ji_only_join i) w); [|congruence]. destruct (find _ (map plain_view vs)) as [wv|]; [|discriminate].
  destruct (find _ (gv_ids wv)) as [j|]; [|discriminate]. destruct (negb (allowed_join (ji_only_join j) v)); [congruence|]. destruct (identifier_to_join i v j w) as [e|]; [|discriminate]. cbn [bind].
  destruct (is_fanout (e_rel e) && negb (mem w (ji_fanouts i))); [congruence|]. destruct (get_xedge g v w) as [old|].
  - destruct (Nat.ltb _ _); intros H; injection H as <-; [apply xtra_identifier|reflexivity].
  - intros H. injection H as <-. apply xtra_identifier.
Qed.
Lemma foldM_inv {A B} (P : A -> Prop) (f : A -> B -> res A) l : (forall x b y, P x -> f x b = Ok y -> P y) -> forall x y, P x -> foldM f x l = Ok y -> P y.
Proof. intros S. induction l as [|b l IH]; cbn [foldM]; intros x y H E; [congruence|]. apply bind_ok in E. destruct E as [z [E1 E2]]. eapply IH; [|exact E2]. eapply S; eauto. Qed.
Lemma xtra_view vs R g v g' a b : (forall u c x, get_xedge R u c = Some x -> x_extra x <> None) -> NoDup (map fst (match assoc (xv_name v) R with Some l => l | None => [] end)) -> x_add_view vs R g v = Ok g' ->
  xtra g' a b = if String.eqb a (xv_name v) then match get_xedge R a b with Some x => x_extra x | None => xtra g a b end else xtra g a b.
Proof.
  intros RX ND H. unfold x_add_view in H. set (h := fold_left _ _ _) in H.
  assert (X : xtra g' a b = xtra h a b).
  { revert H. apply (foldM_inv (fun g => xtra g a b = xtra h a b)); [|reflexivity]. intros x i y P S. rewrite <- P. revert S. apply (foldM_inv (fun g => xtra g a b = xtra x a b)); [|reflexivity]. intros x' w y' P' S'. rewrite <- P'. exact (xtra_step _ _ _ _ _ _ a b S'). }
  rewrite X. clear X H g'. unfold h. clear h. unfold get_xedge. unfold get_xedge in RX. specialize (RX (xv_name v)).
  assert (N : xtra (x_add_node g (xv_name v)) a b = xtra g a b) by (unfold xtra; now rewrite get_node). rewrite <- N. clear N. generalize (x_add_node g (xv_name v)) as k.
  destruct (String.eqb_spec a (xv_name v)) as [->|NE].
  - destruct (assoc (xv_name v) R) as [l|]; [|reflexivity]. induction l as [|[c x] l IH]; intros k; cbn [fold_left assoc]; [reflexivity|]. cbn [map fst] in ND. inversion ND as [|? ? NI ND']. subst.
    pose proof (RX c x) as RC. cbn [assoc] in RC. rewrite String.eqb_refl in RC. specialize (RC eq_refl). destruct (x_extra x) as [kx|] eqn:KX; [|contradiction]. cbn [fst snd]. rewrite KX.
    assert (RX' : forall d y, assoc d l = Some y -> x_extra y <> None).
    { intros d y A. apply (RX d y). cbn [assoc]. destruct (String.eqb_spec d c) as [->|]; [|exact A]. exfalso. apply NI. apply assoc_In in A. apply in_map_iff. exists (c, y). auto. }
    specialize (IH RX' ND'). cbn [fst snd] in IH. rewrite IH. rewrite xtra_explicit, String.eqb_refl. cbn [andb]. destruct (String.eqb_spec b c) as [->|]; [|reflexivity].
    destruct (assoc c l) as [y|] eqn:A; [|now rewrite KX]. exfalso. apply NI. apply assoc_In in A. apply in_map_iff. exists (c, y). auto.
  - destruct (assoc (xv_name v) R) as [l|]; [|reflexivity]. clear ND RX. induction l as [|[c x] l IH]; intros k; cbn [fold_left]; [reflexivity|]. rewrite IH. cbn [fst snd]. destruct (x_extra x) as [kx|]; [rewrite xtra_explicit|apply xtra_identifier]. destruct (String.eqb_spec a (xv_name v)); [contradiction|reflexivity].
Qed.

(** ** Declarations *)
Definition x_declarations (v : xview) (xi : xident) : list (string * string * (rel * string * extra)) :=
  let i := xi_id xi in
  match ji_type i with
  | TJoin => (xv_name v, ji_ref i, (ji_rel i, ji_sql_on i, xi_extra xi)) ::
             match reversed (ji_rel i) with
             | M2O => [(ji_ref i, xv_name v, (M2O, ji_sql_on i, xi_extra xi))]
             | O2O => [(ji_ref i, xv_name v, (O2O, ji_sql_on i, xi_extra xi))]
             | _ => []
             end
  | _ => []
  end.
Definition all_x (vs : list xview) : list (string * string * (rel * string * extra)) := flat_map (fun v => flat_map (x_declarations v) (xv_ids v)) vs.
(** The last explicit join from [a] to [b] *)
Definition explicit_x (vs : list xview) (a b : string) (r : rel) (s : string) (k : extra) : Prop :=
  exists pre post, all_x vs = pre ++ (a, b, (r, s, k)) :: post /\ forall x, ~ In (a, b, x) post.
Definition forget (x : string * string * (rel * string * extra)) : string * string * (rel * string) := (fst x, fst (snd x)).
Lemma all_forget vs : map forget (all_x vs) = all_declarations (map plain_view vs).
Proof.
  unfold all_x, all_declarations. induction vs as [|v vs IH]; cbn [map flat_map]; [reflexivity|]. rewrite map_app, IH. f_equal. cbn [plain_view gv_ids]. induction (xv_ids v) as [|xi l IHl]; cbn [map flat_map]; [reflexivity|].
  rewrite map_app, IHl. f_equal. unfold x_declarations, declarations. cbn [plain_view gv_name]. destruct (ji_type (xi_id xi)); try reflexivity. destruct (ji_rel (xi_id xi)); reflexivity.
Qed.
Lemma explicit_forget vs a b r s k : explicit_x vs a b r s k -> explicit_join (map plain_view vs) a b r s.
Proof.
  intros (pre & post & A & N). exists (map forget pre), (map forget post). split; [rewrite <- all_forget, A, map_app; reflexivity|]. intros x I. apply in_map_iff in I. destruct I as ([[a' b'] [y z]] & X & I). cbn in X. injection X as -> -> ->. exact (N _ I).
Qed.
Definition x_as_edge (d : rel * string * extra) : xedge := XEdge (explicit_edge (fst (fst d)) (snd (fst d))) (Some (snd d)).
Definition x_put (d : xgraph) (x : string * string * (rel * string * extra)) : xgraph := x_set2 (fst (fst x)) (snd (fst x)) (x_as_edge (snd x)) d.
Lemma x_reference_eq vs : x_reference_map vs = fold_left x_put (all_x vs) [].
Proof.
  unfold x_reference_map, all_x. generalize (@nil (string * xadj)) as d. induction vs as [|v vs IH]; intros d; cbn [fold_left flat_map]; [reflexivity|]. rewrite IH, fold_left_app. f_equal. clear IH. revert d.
  induction (xv_ids v) as [|xi l IH]; intros d; cbn [fold_left flat_map]; [reflexivity|]. rewrite IH, fold_left_app. f_equal. unfold x_reference_step, x_declarations. destruct (ji_type (xi_id xi)); try reflexivity. destruct (ji_rel (xi_id xi)); reflexivity.
Qed.
Fixpoint last_x {D} (l : list (string * string * D)) (a b : string) (acc : option D) : option D :=
  match l with [] => acc | ((a', b'), d) :: r => last_x r a b (if String.eqb a a' && String.eqb b b' then Some d else acc) end.
Lemma get_put d x a b : get_xedge (x_put d x) a b = if String.eqb a (fst (fst x)) && String.eqb b (snd (fst x)) then Some (x_as_edge (snd x)) else get_xedge d a b.
Proof.
  destruct x as [[u v] y]. unfold x_put, x_set2, get_xedge. cbn [fst snd]. rewrite assoc_upsert. destruct (String.eqb_spec a u) as [->|]; cbn [andb]; [|reflexivity]. rewrite assoc_upsert. destruct (String.eqb b v); [reflexivity|]. destruct (assoc u d); reflexivity.
Qed.
Lemma fold_put_get l : forall d a b acc, get_xedge d a b = option_map x_as_edge acc -> get_xedge (fold_left x_put l d) a b = option_map x_as_edge (last_x l a b acc).
Proof. induction l as [|[[u v] y] l IH]; intros d a b acc H; cbn [fold_left last_x]; [exact H|]. apply IH. rewrite get_put. cbn [fst snd]. destruct (String.eqb a u && String.eqb b v); [reflexivity|exact H]. Qed.
Lemma last_x_spec {D} (l : list (string * string * D)) : forall a b acc d, last_x l a b acc = Some d <->
  (exists pre post, l = pre ++ (a, b, d) :: post /\ forall x, ~ In (a, b, x) post) \/ (acc = Some d /\ forall x, ~ In (a, b, x) l).
Proof.
  induction l as [|[[u v] y] l IH]; intros a b acc d; cbn [last_x].
  - split; [intros ->; right; split; [reflexivity|intros x []]|]. intros [(pre & post & X & _)|[X _]]; [destruct pre; discriminate X|exact X].
  - rewrite IH. split.
    + intros [(pre & post & -> & N)|[A N]]; [left; exists ((u, v, y) :: pre), post; auto|]. destruct (String.eqb_spec a u) as [->|NE]; [destruct (String.eqb_spec b v) as [->|NE]|]; cbn [andb] in A.
      * injection A as ->. left. exists [], l. auto.
      * right. split; [exact A|]. intros x [X|I]; [congruence|exact (N x I)].
      * right. split; [exact A|]. intros x [X|I]; [congruence|exact (N x I)].
    + intros [(pre & post & X & N)|[A N]].
      * destruct pre as [|p pre]; cbn [app] in X; injection X as X1 X2; [|left; exists pre, post; auto]. subst. rewrite !String.eqb_refl. cbn [andb]. right. auto.
      * right. destruct (String.eqb_spec a u) as [->|NE]; [destruct (String.eqb_spec b v) as [->|NE]|]; cbn [andb]; [exfalso; apply (N y); now left| |]; (split; [exact A|]; intros x I; apply (N x); now right).
Qed.
Lemma x_reference_spec vs a b x : get_xedge (x_reference_map vs) a b = Some x <-> exists r s k, explicit_x vs a b r s k /\ x = XEdge (explicit_edge r s) (Some k).
Proof.
  rewrite x_reference_eq, (fold_put_get _ [] a b None) by reflexivity. split.
  - destruct (last_x (all_x vs) a b None) as [[[r s] k]|] eqn:L; [|discriminate]. intros H. injection H as <-. apply last_x_spec in L. destruct L as [L|[L _]]; [|discriminate L]. exists r, s, k. split; [exact L|reflexivity].
  - intros (r & s & k & H & ->). assert (L : last_x (all_x vs) a b None = Some (r, s, k)) by (apply last_x_spec; left; exact H). rewrite L. reflexivity.
Qed.
Lemma upsert_nodup {V} k (v : V) d : NoDup (map fst d) -> NoDup (map fst (upsert k v d)).
Proof. apply upsert_NoDup. Qed.
Lemma x_reference_nodup vs u : NoDup (map fst (match assoc u (x_reference_map vs) with Some l => l | None => [] end)).
Proof.
  rewrite x_reference_eq. assert (G : forall l d, (forall u, NoDup (map fst (match assoc u d with Some l => l | None => [] end))) -> forall u, NoDup (map fst (match assoc u (fold_left x_put l d) with Some l => l | None => [] end))).
  { induction l as [|x l IH]; intros d H; cbn [fold_left]; [exact H|]. apply IH. intros w. unfold x_put, x_set2. rewrite assoc_upsert. destruct (String.eqb w (fst (fst x))); [|apply H]. apply upsert_nodup. apply H. }
  apply G. intros w. constructor.
Qed.
Lemma mem_cons a x l : mem a (x :: l) = String.eqb a x || mem a l.
Proof. reflexivity. Qed.
Lemma xtra_build vs g a b : x_build vs = Ok g -> In a (map xv_name vs) -> xtra g a b = match get_xedge (x_reference_map vs) a b with Some x => x_extra x | None => None end.
Proof.
  unfold x_build. intros H. assert (RX : forall u c x, get_xedge (x_reference_map vs) u c = Some x -> x_extra x <> None) by (intros u c x K; apply x_reference_spec in K; destruct K as (r & s & k & _ & ->); discriminate).
  pose proof (x_reference_nodup vs) as ND. set (R := x_reference_map vs) in *. clearbody R.
  assert (G : forall todo seen h g, x_build_loop vs R todo seen h = Ok g -> (forall v, In v todo -> mem (xv_name v) seen = false -> forall b, xtra h (xv_name v) b = None) ->
     xtra g a b = (if mem a seen then xtra h a b else if mem a (map xv_name todo) then match get_xedge R a b with Some x => x_extra x | None => None end else xtra h a b)).
  { clear H g. induction todo as [|v todo IH]; intros seen h g H N; cbn [x_build_loop] in H; [injection H as <-; cbn [map mem]; destruct (mem a seen); reflexivity|]. destruct (mem (xv_name v) seen) eqn:S; [discriminate H|]. apply bind_ok in H. destruct H as [h' [V H]].
    pose proof (fun c d => xtra_view vs R h v h' c d RX (ND (xv_name v)) V) as X. apply IH in H.
    - rewrite H. cbn [map]. rewrite !mem_cons, X. destruct (String.eqb_spec a (xv_name v)) as [->|NE]; cbn [orb].
      + rewrite S. destruct (get_xedge R (xv_name v) b) as [x|]; [reflexivity|]. apply N; [now left|exact S].
      + reflexivity.
    - intros w I M c. rewrite mem_cons in M. apply orb_false_iff in M. destruct M as [M1 M2]. rewrite X. rewrite M1. apply N; [now right|exact M2]. }
  intros I. rewrite (G _ _ _ _ H); [|intros v _ _ c; reflexivity]. cbn [mem]. replace (mem a (map xv_name vs)) with true by (symmetry; now apply mem_In). reflexivity.
Qed.
