(** C05-C07: caches, temporary fields, replace_objects.  Specification: ProjectState_Spec.v. *)
From Verif Require Import PyBase PyStr Core_Model Access_Props ProjectState_Model ProjectState_Spec ProjectState_Proofs.
Local Open Scope string_scope.
Local Open Scope list_scope.

Definition ex_model : model_def := ModelDef "m" ex_grants.
Definition ex_new : field_def := FieldDef "new_metric" Measure "sum" [] [] false [] false [].
Definition ex_dumps (u : user_attrs) : string :=
  concat "" (map (fun kv => fst kv ++ "=" ++ match snd kv with Some v => "'" ++ v | None => "null" end ++ ";")%string u).
Definition ex_hash (s : string) : Z := fold_left (fun z c => (z * 256 + Z.of_nat (nat_of_ascii c))%Z) (list_ascii_of_string s) 1%Z.
Definition ex_build (p : project) : res (list string) := vs <- views p true ;; Ok (map vd_name vs).

(** ** C05 *)

(** Every answer of a long lived, caching project equals the answer of a project without caches, for
    every history of user changes, edits, refreshes and lookups, provided edits refresh (the default),
    the hash separates the users that occur, and the user is not switched under a memoised join graph. *)
Theorem C05_cached_answers_are_fresh_answers :
  forall (G : Type) dumps hash (build : project -> res G) ms vs ds (ops : list op),
    (forall u1 u2, In u1 (users ops) -> In u2 (users ops) ->
       ukey dumps hash u1 = ukey dumps hash u2 -> u1 = u2) ->
    Forall refreshing ops -> graph_not_stale false ops ->
    cached_trace G build dumps hash (fresh G ms vs ds) ops = plain_trace G build (Plain ms vs ds None) ops.
Proof. exact cached_trace_fresh. Qed.
Print Assumptions C05_cached_answers_are_fresh_answers.

Definition ex_history : list op :=
  [OGet ("orders.total_revenue", None); OSetUser (Some [("department", Some "sales")]);
   OGet ("orders.total_revenue", None); OSetUser (Some ex_user); OFields (None, true, true);
   OAdd ex_new "orders" true; OGet ("new_metric", None); OGraph; ORemove "new_metric" "orders" true;
   ORefresh; OSetUser None; OGetByName ("ordered", Some "orders")].

Example C05_case :
  (forall u1 u2, In u1 (users ex_history) -> In u2 (users ex_history) ->
     ukey ex_dumps ex_hash u1 = ukey ex_dumps ex_hash u2 -> u1 = u2) /\
  Forall refreshing ex_history /\ graph_not_stale false ex_history.
Proof.
  split; [|split].
  - intros u1 u2 H1 H2.
    assert (E : users ex_history = [None; Some [("department", Some "sales")]; Some ex_user; None]) by reflexivity.
    rewrite E in *. clear E.
    repeat (destruct H1 as [<-|H1]); try (destruct H1); repeat (destruct H2 as [<-|H2]); try (destruct H2);
      intros K; try reflexivity; exfalso; vm_compute in K; discriminate.
  - repeat constructor.
  - simpl. auto.
Qed.

(** Finding: the memoised join graph survives set_user, so a user can be shown another user's graph. *)
Theorem C05_join_graph_after_set_user_refuted :
  exists (ops : list op),
    Forall refreshing ops /\
    cached_trace (list string) ex_build ex_dumps ex_hash (fresh _ [ex_model] [ex_orders; ex_customers] []) ops
    <> plain_trace (list string) ex_build (Plain [ex_model] [ex_orders; ex_customers] [] None) ops.
Proof.
  exists [OGraph; OSetUser (Some [("department", Some "sales")]); OGraph].
  split; [repeat constructor|]. vm_compute. discriminate.
Qed.
Print Assumptions C05_join_graph_after_set_user_refuted.

(** Finding: an edit with refresh_cache=False leaves stale answers behind. *)
Theorem C05_without_refresh_refuted :
  exists (ops : list op),
    graph_not_stale false ops /\
    cached_trace (list string) ex_build ex_dumps ex_hash (fresh _ [ex_model] [ex_orders; ex_customers] []) ops
    <> plain_trace (list string) ex_build (Plain [ex_model] [ex_orders; ex_customers] [] None) ops.
Proof.
  exists [OGet ("orders.total_revenue", None); ORemove "Total_Revenue" "orders" false; OGet ("orders.total_revenue", None)].
  split; [simpl; auto|]. vm_compute. discriminate.
Qed.
Print Assumptions C05_without_refresh_refuted.

(** Finding: no user and the user {} share one cache key although an unknown grant separates them,
    whatever dumps and hash are. *)
Theorem C05_no_user_and_empty_user_refuted :
  forall dumps hash,
  exists ms vs (ops : list op),
    Forall refreshing ops /\ graph_not_stale false ops /\
    cached_trace (list string) ex_build dumps hash (fresh _ ms vs []) ops
    <> plain_trace (list string) ex_build (Plain ms vs [] None) ops.
Proof.
  intros dumps hash. exists [], [ViewDef "v" false ["unknown"] [ex_region] []],
    [OGet ("v.region", None); OSetUser (Some []); OGet ("v.region", None)].
  split; [repeat constructor|]. split; [simpl; auto|].
  simpl. unfold c_get_field. simpl. rewrite Z.eqb_refl. simpl. discriminate.
Qed.
Print Assumptions C05_no_user_and_empty_user_refuted.

(** ** C06 *)

(** Adding a temporary field, using it and removing it restores the project exactly iff the view had
    no field of exactly that name. *)
Theorem C06_temporary_field_leaves_no_trace :
  forall (G A : Type) (fd : field_def) (vn : string) (body : project -> res A) (s s' : pstate G) a,
    with_temp_field G fd vn body s = (s', Ok a) ->
    (s' = s <-> forall pre v post, ps_views G s = pre ++ v :: post -> vd_name v = vn ->
                 (forall w, In w pre -> vd_name w <> vn) ->
                 forall g, In g (vd_fields v) -> fd_name g <> fd_name fd).
Proof. exact @temp_field_restores_iff. Qed.
Print Assumptions C06_temporary_field_leaves_no_trace.

(** Adding a field whose name is taken (in any letter case) changes nothing. *)
Theorem C06_adding_an_existing_name_changes_nothing :
  forall (G : Type) (fd : field_def) (vn : string) (s : pstate G) pre v post,
    ps_views G s = pre ++ v :: post -> vd_name v = vn -> (forall w, In w pre -> vd_name w <> vn) ->
    (exists g, In g (vd_fields v) /\ lower (fd_name g) = lower (fd_name fd)) ->
    add_field G fd vn false s = (s, Ok tt).
Proof. exact add_existing_noop. Qed.
Print Assumptions C06_adding_an_existing_name_changes_nothing.

Definition ex_state : pstate unit := fresh unit [ex_model] [ex_orders; ex_customers] [].

Example C06_case :
  exists a, with_temp_field unit ex_new "orders" (fun p => get_field p "orders.new_metric" None) ex_state = (ex_state, Ok a).
Proof. eexists. reflexivity. Qed.

Example C06_existing_case :
  exists g, In g (vd_fields ex_orders) /\ lower (fd_name g) = lower "TOTAL_revenue".
Proof. exists ex_rev. split; [left; reflexivity|reflexivity]. Qed.

(** Finding: if the view already has a field with the temporary name, that field is deleted for good. *)
Theorem C06_existing_field_is_deleted_refuted :
  exists (fd : field_def) (s s' : pstate unit) a,
    with_temp_field unit fd "orders" (fun _ => Ok tt) s = (s', Ok a) /\
    In ex_rev (flat_map vd_fields (ps_views unit s)) /\ ~ In ex_rev (flat_map vd_fields (ps_views unit s')).
Proof.
  exists (FieldDef "Total_Revenue" Measure "max" [] [] false [] false []), ex_state. eexists _, _.
  split; [reflexivity|]. split; [left; reflexivity|]. simpl. intuition discriminate.
Qed.
Print Assumptions C06_existing_field_is_deleted_refuted.

(** Finding: an exception while the temporary field is in place leaves it in the project. *)
Theorem C06_exception_leaks_the_field_refuted :
  exists (s s' : pstate unit) e,
    with_temp_field (A := unit) unit ex_new "orders" (fun _ => Err JoinError) s = (s', Err e) /\ s' <> s /\
    In ex_new (flat_map vd_fields (ps_views unit s')) /\ ~ In ex_new (flat_map vd_fields (ps_views unit s)).
Proof.
  exists ex_state. eexists _, _. split; [reflexivity|]. split; [discriminate|].
  simpl. split; [tauto|intuition discriminate].
Qed.
Print Assumptions C06_exception_leaks_the_field_refuted.

(** ** C07 *)

(** Leaving the block, normally or with any exception and whatever the body did to the object:
    models, views and dashboards are those of entry and no cached answer survives; the body's outcome
    is passed on.  A replaced object without a name is refused before anything changes. *)
Theorem C07_replace_objects_is_transactional :
  forall (G A : Type) (l : list robj) (body : pstate G -> pstate G * res A) (s s' : pstate G) r,
    replace_objects G l body s = (s', r) ->
    ps_models G s' = ps_models G s /\ ps_views G s' = ps_views G s /\ ps_dash G s' = ps_dash G s /\
    (~ In RNameless l ->
       ps_fields G s' = [] /\ ps_get G s' = [] /\ ps_name G s' = [] /\ ps_graph G s' = None /\
       r = snd (body (replaced G l s))) /\
    (In RNameless l -> s' = s /\ r = Err KeyError).
Proof.
  intros G A l body s s' r H. pose proof (replace_objects_spec G l body s s' r H) as (M & V & D & K & N).
  repeat split; try assumption.
  1-5: apply K; destruct (existsb nameless l) eqn:E; [|reflexivity]; exfalso; apply existsb_exists in E;
       destruct E as (o & I & J); destruct o; try discriminate J; exact (H0 I).
  1-2: apply N; apply existsb_exists; exists RNameless; split; [assumption|reflexivity].
Qed.
Print Assumptions C07_replace_objects_is_transactional.

Lemma keep_In {A} (nm : A -> string) new old (x : A) :
  In x (filter (fun x => negb (mem (nm x) (map nm new))) old ++ new) <->
  In x new \/ (In x old /\ forall y, In y new -> nm y <> nm x).
Proof.
  rewrite in_app_iff, filter_In, negb_true_iff, mem_false. split.
  - intros [[H1 H2]|H]; [|left; exact H]. right. split; [exact H1|].
    intros y Hy E. apply H2. rewrite <- E. apply in_map; exact Hy.
  - intros [H|[H1 H2]]; [right; exact H|]. left. split; [exact H1|].
    intros H. apply in_map_iff in H. destruct H as (y & E & Hy). exact (H2 y Hy E).
Qed.

Lemma r_views_In l v : In v (r_views l) <-> In (RView v) l.
Proof.
  unfold r_views. rewrite in_flat_map. split.
  - intros (o & Ho & H). destruct o; simpl in H; try tauto. destruct H as [->|[]]. exact Ho.
  - intros H. exists (RView v). split; [exact H|left; reflexivity].
Qed.
Lemma r_models_In l v : In v (r_models l) <-> In (RModel v) l.
Proof.
  unfold r_models. rewrite in_flat_map. split.
  - intros (o & Ho & H). destruct o; simpl in H; try tauto. destruct H as [->|[]]. exact Ho.
  - intros H. exists (RModel v). split; [exact H|left; reflexivity].
Qed.
Lemma r_dash_In l v : In v (r_dash l) <-> In (RDash v) l.
Proof.
  unfold r_dash. rewrite in_flat_map. split.
  - intros (o & Ho & H). destruct o; simpl in H; try tauto. destruct H as [->|[]]. exact Ho.
  - intros H. exists (RDash v). split; [exact H|left; reflexivity].
Qed.

(** Inside the block the given objects shadow exactly the same-named ones of their kind; the user is
    the same and nothing is cached. *)
Theorem C07_inside_the_block :
  forall (G : Type) (l : list robj) (s : pstate G),
    let t := replaced G l s in
    (forall v, In v (ps_views G t) <->
       In (RView v) l \/ (In v (ps_views G s) /\ forall w, In (RView w) l -> vd_name w <> vd_name v)) /\
    (forall m, In m (ps_models G t) <->
       In (RModel m) l \/ (In m (ps_models G s) /\ forall w, In (RModel w) l -> m_name w <> m_name m)) /\
    (forall d, In d (ps_dash G t) <->
       In (RDash d) l \/ (In d (ps_dash G s) /\ forall w, In (RDash w) l -> dd_name w <> dd_name d)) /\
    ps_user G t = ps_user G s /\
    ps_fields G t = [] /\ ps_get G t = [] /\ ps_name G t = [] /\ ps_graph G t = None.
Proof.
  intros G l s t. unfold t. simpl.
  split; [|split; [|split; [|repeat split]]]; intros x; rewrite keep_In.
  - rewrite r_views_In. split; (intros [H|[H1 H2]]; [left; exact H|right; split; [exact H1|]]);
      intros w Hw; apply H2; apply r_views_In; exact Hw.
  - rewrite r_models_In. split; (intros [H|[H1 H2]]; [left; exact H|right; split; [exact H1|]]);
      intros w Hw; apply H2; apply r_models_In; exact Hw.
  - rewrite r_dash_In. split; (intros [H|[H1 H2]]; [left; exact H|right; split; [exact H1|]]);
      intros w Hw; apply H2; apply r_dash_In; exact Hw.
Qed.
Print Assumptions C07_inside_the_block.

(** Programs with nested blocks. *)
Inductive prog (G : Type) :=
| Do (f : pstate G -> pstate G * res unit)
| Then (p q : prog G)
| Block (l : list robj) (p : prog G).
Fixpoint exec {G} (p : prog G) (s : pstate G) : pstate G * res unit :=
  match p with
  | Do _ f => f s
  | Then _ p q => let '(s1, r) := exec p s in match r with Ok _ => exec q s1 | Err e => (s1, Err e) end
  | Block _ l p => replace_objects G l (exec p) s
  end.
(** Actions outside every block leave the content alone; inside blocks anything goes. *)
Fixpoint outer_actions_keep_content {G} (p : prog G) : Prop :=
  match p with
  | Do _ f => forall s, ps_models G (fst (f s)) = ps_models G s /\ ps_views G (fst (f s)) = ps_views G s /\
                        ps_dash G (fst (f s)) = ps_dash G s
  | Then _ p q => outer_actions_keep_content p /\ outer_actions_keep_content q
  | Block _ _ _ => True
  end.

(** Blocks nest: whatever happens inside any nesting of blocks, the content afterwards is the content before. *)
Theorem C07_blocks_nest :
  forall (G : Type) (p : prog G), outer_actions_keep_content p ->
  forall s, ps_models G (fst (exec p s)) = ps_models G s /\ ps_views G (fst (exec p s)) = ps_views G s /\
            ps_dash G (fst (exec p s)) = ps_dash G s.
Proof.
  intros G p. induction p as [f|p IHp q IHq|l p IH]; simpl; intros H s.
  - apply H.
  - destruct H as [Hp Hq]. specialize (IHp Hp s). destruct (exec p s) as [s1 [u|e]]; simpl in *.
    + specialize (IHq Hq s1). destruct IHp as (A1 & A2 & A3), IHq as (B1 & B2 & B3).
      repeat split; congruence.
    + exact IHp.
  - destruct (replace_objects G l (exec p) s) as [s' r] eqn:E. apply replace_objects_spec in E. simpl. tauto.
Qed.
Print Assumptions C07_blocks_nest.

Example C07_case :
  let p := Block unit [RView (ViewDef "orders" false [] [] [])]
             (Then unit (Block unit [RModel (ModelDef "m" [])] (Do unit (fun s => (refresh unit s, Err JoinError))))
                        (Do unit (add_field unit ex_new "orders" true))) in
  outer_actions_keep_content p /\ exec p ex_state = (ex_state, Err JoinError).
Proof. split; [exact I|reflexivity]. Qed.
