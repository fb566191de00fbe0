From Verif Require Import PyBase PyStr JoinAs_Model JoinAs_Spec.
Local Open Scope string_scope.
Local Open Scope list_scope.

Definition is_request (i : ident) : bool :=
  match i_join_as i with Some _ => String.eqb (i_type i) "primary" | None => false end.

Definition set_ids (v : jview) (l : list ident) : jview :=
  JView (jv_name v) l (jv_fields v) (jv_label v) (jv_field_prefix v) (jv_rest v).

Definition drop_names (ns : list string) (l : list ident) : list ident :=
  filter (fun j => negb (mem (i_name j) ns)) l.

(** The declarative result of one request. *)
Definition copy_of (n : string) (v : jview) (i : ident) : jview := rename (new_view v i n) n.

Lemma new_view_ids v l i n : new_view (set_ids v l) i n = new_view v i n.
Proof. reflexivity. Qed.

(** Adding requests to the dict. *)
Fixpoint add_requests (rs : list (string * (jview * ident))) (d : created) : res created :=
  match rs with
  | [] => Ok d
  | (n, (v, i)) :: r =>
      match assoc n d with
      | None => add_requests r (d ++ [(n, new_view v i n)])
      | Some w => if String.eqb (jv_name w) (jv_name v) then add_requests r d else Err QueryError
      end
  end.

Lemma add_requests_app a b d : add_requests (a ++ b) d = (d' <- add_requests a d ;; add_requests b d').
Proof.
  revert d; induction a as [|[n [v i]] a IH]; intros d; simpl; [reflexivity|].
  destruct (assoc n d) as [w|]; [|apply IH]. destruct (String.eqb (jv_name w) (jv_name v)); [apply IH|reflexivity].
Qed.

Definition req_names (v : jview) (todo : list ident) : list string :=
  map i_name (filter is_request todo).

Lemma loop_identifiers_eq todo v l d :
  loop_identifiers todo (set_ids v l) d =
  (d' <- add_requests (flat_map (request_of v) todo) d ;;
   Ok (set_ids v (drop_names (req_names v todo) l), d')).
Proof.
  revert l d; induction todo as [|i r IH]; intros l d; simpl.
  - unfold drop_names. rewrite filter_all; [reflexivity|intros; reflexivity].
  - unfold req_names, is_request, request_of at 1. simpl. destruct (i_join_as i) as [n|] eqn:Ej; simpl.
    + destruct (String.eqb (i_type i) "primary") eqn:Et; simpl.
      * assert (Hd : forall d0, (d' <- add_requests (flat_map (request_of v) r) d0 ;;
                   Ok (set_ids v (drop_names (req_names v r) (filter (fun j => negb (String.eqb (i_name j) (i_name i))) l)), d'))
                 = (d' <- add_requests (flat_map (request_of v) r) d0 ;;
                   Ok (set_ids v (drop_names (i_name i :: map i_name (filter is_request r)) l), d'))).
        { intros d0. unfold drop_names, req_names. f_equal.
          assert (E : filter (fun j => negb (mem (i_name j) (map i_name (filter is_request r))))
                        (filter (fun j => negb (String.eqb (i_name j) (i_name i))) l)
                      = filter (fun j => negb (mem (i_name j) (i_name i :: map i_name (filter is_request r)))) l).
          { clear. induction l as [|x l IH]; simpl; [reflexivity|].
            destruct (String.eqb (i_name x) (i_name i)); simpl; [exact IH|].
            destruct (mem (i_name x) (map i_name (filter is_request r))); simpl; [exact IH|].
            f_equal. exact IH. }
          rewrite E. reflexivity. }
        change (JView (jv_name v) (filter (fun j => negb (String.eqb (i_name j) (i_name i))) l) (jv_fields v)
                 (jv_label v) (jv_field_prefix v) (jv_rest v))
          with (set_ids v (filter (fun j => negb (String.eqb (i_name j) (i_name i))) l)).
        rewrite new_view_ids.
        destruct (assoc n d) as [w|]; [destruct (String.eqb (jv_name w) (jv_name v))|];
          [rewrite IH; apply Hd|reflexivity|rewrite IH; apply Hd].
      * rewrite IH. reflexivity.
    + rewrite IH. reflexivity.
Qed.

Definition strip (v : jview) : jview := set_ids v (drop_names (req_names v (jv_identifiers v)) (jv_identifiers v)).

Lemma set_ids_id v : set_ids v (jv_identifiers v) = v.
Proof. destruct v; reflexivity. Qed.

Lemma loop_views_eq vs d :
  loop_views vs d = (d' <- add_requests (all_requests vs) d ;; Ok (map strip vs, d')).
Proof.
  revert d; induction vs as [|v r IH]; intros d; simpl; [reflexivity|].
  rewrite add_requests_app.
  rewrite <- (set_ids_id v) at 2. rewrite loop_identifiers_eq.
  destruct (add_requests (flat_map (request_of v) (jv_identifiers v)) d) as [d1|e]; simpl; [|reflexivity].
  rewrite IH. destruct (add_requests (all_requests r) d1) as [d2|e]; reflexivity.
Qed.

(** The dict after all requests: one entry per distinct name, from its first request. *)
Definition consistent (d : created) (rs : list (string * (jview * ident))) : Prop :=
  (forall n v i w, In (n, (v, i)) rs -> assoc n d = Some w -> jv_name w = jv_name v) /\
  (forall n v i w j, In (n, (v, i)) rs -> In (n, (w, j)) rs -> jv_name v = jv_name w).

Definition entry (r : string * (jview * ident)) : string * jview :=
  (fst r, new_view (fst (snd r)) (snd (snd r)) (fst r)).

Lemma assoc_app {B} k (a b : list (string * B)) :
  assoc k (a ++ b) = match assoc k a with Some v => Some v | None => assoc k b end.
Proof. induction a as [|[k' v] a IH]; simpl; [reflexivity|]. destruct (String.eqb k k'); auto. Qed.

Lemma add_requests_ok rs : forall d d',
  add_requests rs d = Ok d' <->
  consistent d rs /\ d' = d ++ map entry (dedup_by_aux fst (map fst d) rs).
Proof.
  induction rs as [|[n [v i]] r IH]; intros d d'.
  - simpl. rewrite app_nil_r. split.
    + intros H; injection H as <-. split; [|reflexivity]. split; [intros ? ? ? ? []|intros ? ? ? ? ? []].
    + intros [_ ->]. reflexivity.
  - simpl. destruct (assoc n d) as [w|] eqn:E.
    + assert (Hm : mem n (map fst d) = true).
      { apply mem_In. apply assoc_In in E. apply (in_map fst) in E. exact E. }
      rewrite Hm. destruct (String.eqb (jv_name w) (jv_name v)) eqn:Ew.
      * apply String.eqb_eq in Ew. rewrite IH. split.
        -- intros [[C1 C2] ->]. split; [|reflexivity]. split.
           ++ intros n' v' i' w' [H|H] Hw; [injection H as <- <- <-; congruence|exact (C1 _ _ _ _ H Hw)].
           ++ intros n' v' i' w' j' [H|H] [K|K].
              ** congruence.
              ** injection H as <- <- <-. rewrite <- (C1 _ _ _ _ K E). congruence.
              ** injection K as <- <- <-. rewrite <- (C1 _ _ _ _ H E). congruence.
              ** exact (C2 _ _ _ _ _ H K).
        -- intros [[C1 C2] ->]. split; [|reflexivity]. split.
           ++ intros n' v' i' w' H Hw. exact (C1 _ _ _ _ (or_intror H) Hw).
           ++ intros n' v' i' w' j' H K. exact (C2 _ _ _ _ _ (or_intror H) (or_intror K)).
      * apply String.eqb_neq in Ew. split; [discriminate|]. intros [[C1 _] _].
        exfalso. apply Ew. exact (C1 n v i w (or_introl eq_refl) E).
    + assert (Hm : mem n (map fst d) = false).
      { apply mem_false. apply assoc_None. exact E. }
      rewrite Hm, IH. simpl.
      assert (Heq : dedup_by_aux fst (map fst (d ++ [(n, new_view v i n)])) r
                    = dedup_by_aux fst (n :: map fst d) r).
      { rewrite map_app. simpl. clear.
        assert (G : forall s1 s2 (l : list (string * (jview * ident))), (forall x, mem x s1 = mem x s2) ->
                     dedup_by_aux fst s1 l = dedup_by_aux fst s2 l).
        { intros s1 s2 l. revert s1 s2. induction l as [|y l IHl]; simpl; intros s1 s2 H; [reflexivity|].
          rewrite H. destruct (mem (fst y) s2); [apply IHl; exact H|]. f_equal. apply IHl.
          intros x. unfold mem in *. simpl. rewrite H. reflexivity. }
        apply G. intros x. unfold mem. rewrite existsb_app. simpl. rewrite orb_false_r. apply orb_comm. }
      rewrite Heq. split.
      * intros [[C1 C2] ->]. split.
        -- split.
           ++ intros n' v' i' w' [H|H] Hw.
              ** injection H as <- <- <-. congruence.
              ** apply (C1 _ _ _ w' H). rewrite assoc_app, Hw. reflexivity.
           ++ intros n' v' i' w' j' [H|H] [K|K].
              ** congruence.
              ** injection H as <- <- <-. assert (X := C1 _ _ _ (new_view v i n) K).
                 rewrite assoc_app, E in X. simpl in X. rewrite String.eqb_refl in X. apply X. reflexivity.
              ** injection K as <- <- <-. assert (X := C1 _ _ _ (new_view v i n) H).
                 rewrite assoc_app, E in X. simpl in X. rewrite String.eqb_refl in X. symmetry. apply X. reflexivity.
              ** exact (C2 _ _ _ _ _ H K).
        -- rewrite <- app_assoc. reflexivity.
      * intros [[C1 C2] ->]. split; [|rewrite <- app_assoc; reflexivity]. split.
        -- intros n' v' i' w' H Hw. rewrite assoc_app in Hw. destruct (assoc n' d) as [w2|] eqn:E2.
           ++ injection Hw as ->. exact (C1 _ _ _ _ (or_intror H) E2).
           ++ simpl in Hw. destruct (String.eqb n' n) eqn:En; [|discriminate]. apply String.eqb_eq in En. subst n'.
              injection Hw as <-. simpl. exact (C2 _ _ _ _ _ (or_introl eq_refl) (or_intror H)).
        -- intros n' v' i' w' j' H K. exact (C2 _ _ _ _ _ (or_intror H) (or_intror K)).
Qed.

Lemma add_requests_err rs : forall d e, add_requests rs d = Err e -> e = QueryError.
Proof.
  induction rs as [|[n [v i]] r IH]; intros d e; simpl; [discriminate|].
  destruct (assoc n d) as [w|]; [destruct (String.eqb (jv_name w) (jv_name v))|]; eauto. congruence.
Qed.

Lemma all_requests_In vs n v i : In (n, (v, i)) (all_requests vs) <-> In v vs /\ requests v i n.
Proof.
  unfold all_requests, requests. rewrite in_flat_map. split.
  - intros (v' & Hv & H). apply in_flat_map in H. destruct H as (i' & Hi & H).
    unfold request_of in H. destruct (i_join_as i') as [m|] eqn:Ej; [|destruct H].
    destruct (String.eqb (i_type i') "primary") eqn:Et; [|destruct H]. destruct H as [H|[]].
    injection H as -> -> ->. apply String.eqb_eq in Et. auto.
  - intros (Hv & Hi & Ht & Hj). exists v. split; [exact Hv|]. apply in_flat_map. exists i. split; [exact Hi|].
    unfold request_of. rewrite Hj, Ht. simpl. left; reflexivity.
Qed.

Definition compatible (vs : list jview) : Prop :=
  forall v i w j n, In v vs -> In w vs -> requests v i n -> requests w j n -> jv_name v = jv_name w.

Lemma handle_join_as_ok vs r :
  handle_join_as vs = Ok r <->
  compatible vs /\
  r = map strip vs ++ map (fun q => copy_of (fst q) (fst (snd q)) (snd (snd q))) (dedup_by fst (all_requests vs)).
Proof.
  unfold handle_join_as. rewrite loop_views_eq, bind_ok. split.
  - intros (x & Hx & H). apply bind_ok in Hx. destruct Hx as (d & Hd & Hx). injection Hx as <-.
    injection H as <-. apply add_requests_ok in Hd. destruct Hd as [[_ C2] ->]. split.
    + intros v i w j n Hv Hw Hi Hj. eapply C2; apply all_requests_In; eauto.
    + simpl. rewrite map_map. reflexivity.
  - intros [C ->].
    assert (C' : consistent [] (all_requests vs)).
    { split; [intros n v i w _ H; discriminate H|]. intros n v i w j H K.
      apply all_requests_In in H, K. destruct H as [H1 H2], K as [K1 K2]. exact (C _ _ _ _ _ H1 K1 H2 K2). }
    assert (Hd := proj2 (add_requests_ok (all_requests vs) [] _) (conj C' eq_refl)).
    rewrite Hd. simpl. eexists. split; [reflexivity|]. simpl. rewrite map_map. reflexivity.
Qed.

Lemma handle_join_as_err vs e : handle_join_as vs = Err e <-> e = QueryError /\ ~ compatible vs.
Proof.
  split.
  - intros H. split.
    + unfold handle_join_as in H. rewrite loop_views_eq in H. apply bind_err in H.
      destruct H as [H|(x & _ & H)]; [|discriminate]. apply bind_err in H.
      destruct H as [H|(x & _ & H)]; [|discriminate]. exact (add_requests_err _ _ _ H).
    + intros C. assert (K := proj2 (handle_join_as_ok vs _) (conj C eq_refl)). congruence.
  - intros [-> C]. destruct (handle_join_as vs) as [r|e] eqn:E.
    + apply handle_join_as_ok in E. tauto.
    + f_equal. unfold handle_join_as in E. rewrite loop_views_eq in E. apply bind_err in E.
      destruct E as [E|(x & _ & E)]; [|discriminate]. apply bind_err in E.
      destruct E as [E|(x & _ & E)]; [|discriminate]. exact (add_requests_err _ _ _ E).
Qed.

Lemma strip_stripped v : stripped v (strip v).
Proof.
  unfold stripped, strip. simpl. repeat (split; [reflexivity|]). split; [eexists; reflexivity|].
  intros j. unfold drop_names. rewrite filter_In, negb_true_iff, mem_false. split.
  - intros [H1 H2]. split; [exact H1|]. intros (i & n & (Hi & Ht & Hj) & He). apply H2.
    rewrite <- He. apply in_map. apply filter_In. split; [exact Hi|]. unfold is_request.
    rewrite Hj, Ht. reflexivity.
  - intros [H1 H2]. split; [exact H1|]. intros H. apply in_map_iff in H. destruct H as (i & He & Hi).
    apply filter_In in Hi. destruct Hi as [Hi Hr]. unfold is_request in Hr.
    destruct (i_join_as i) as [n|] eqn:Ej; [|discriminate]. apply String.eqb_eq in Hr.
    apply H2. exists i, n. split; [split; auto|exact He].
Qed.

Lemma copy_of_is_copy n v i : is_copy n v i (copy_of n v i).
Proof.
  constructor; simpl; try reflexivity.
  - exists (without_join_as i). repeat split.
  - intros f. destruct (i_include_metrics i).
    + intuition.
    + rewrite filter_In, negb_true_iff, String.eqb_neq. intuition congruence.
  - intros x ->. reflexivity.
Qed.

