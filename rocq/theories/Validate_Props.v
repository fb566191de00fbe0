(** Specification and property theorems: C45, the errors reported by validate(). *)
From Coq Require Import List String Arith Bool Lia.
From Verif Require Import PyReplace PyBase PyStr PySort PyCounter Validate_Model.
Import ListNotations.
Local Open Scope string_scope.
Local Open Scope list_scope.

(** ** Specification *)
Definition messages (l : list verr) : list string := flat_map (fun e => match e with VDict m _ _ => [m] | VOther _ => [] end) l.
(** r is what remains of l when each message is kept where it first occurs *)
Inductive firsts_of : list verr -> list verr -> Prop :=
| fo_nil : firsts_of [] []
| fo_keep l r m v f : firsts_of l r -> ~ In m (messages l) -> firsts_of (l ++ [VDict m v f]) (r ++ [VDict m v f])
| fo_again l r m v f : firsts_of l r -> In m (messages l) -> firsts_of (l ++ [VDict m v f]) r
| fo_other l r t : firsts_of l r -> firsts_of (l ++ [VOther t]) r.

(** a project in which nothing prevents the checks from being made *)
Definition checkable (p : vproject) : Prop :=
  (forall o, In o (vp_models p) -> exists es, o = Done es)
  /\ (exists es, vp_joins p = Done es)
  /\ (forall v, In v (vp_views p) -> (exists rs, vw_refs v = Done rs) /\ (vw_table v = Done tt \/ exists t, vw_table v = RQuery t)).
(** the problems of one view *)
Inductive view_problem (required : list string) (v : vview) : string -> Prop :=
| vp_no_filter a : In a required -> vw_filters v = [] ->
    view_problem required v ("View " ++ vw_name v ++ " does not have any access filters, but an access filter with user attribute " ++ a ++ " is required.")%string
| vp_filter a : In a required -> vw_filters v <> [] -> ~ In a (vw_filters v) ->
    view_problem required v ("View " ++ vw_name v ++ " does not have an access filter with the required user attribute " ++ a)%string
| vp_table t : vw_table v = RQuery t -> view_problem required v (t ++ " in the view " ++ vw_name v)%string
| vp_reference rs f t : vw_refs v = Done rs -> In (RMissing f t) rs -> contains "Warning: " t = false ->
    view_problem required v ("Could not locate reference " ++ t ++ " in field " ++ f ++ " in view " ++ vw_name v)%string
| vp_warning rs f t : vw_refs v = Done rs -> In (RMissing f t) rs -> contains "Warning: " t = true ->
    view_problem required v ("Warning: Could not locate reference " ++ replace "Warning: " "" t ++ " in field " ++ f ++ " in view " ++ vw_name v)%string
| vp_own m a b : In (VDict m a b) (vw_errors v) -> view_problem required v m.
(** all problems *)
Inductive problem (p : vproject) : string -> Prop :=
| pr_model es m a b : In (Done es) (vp_models p) -> In (VDict m a b) es -> problem p m
| pr_joins es m a b : vp_joins p = Done es -> In (VDict m a b) es -> problem p m
| pr_tag t : In (RQuery t) (vp_tags p) -> problem p (tag_text t)
| pr_view v m : In v (vp_views p) -> view_problem (vp_required p) v m -> problem p m
| pr_dashboard n es m a b : In (n, es) (vp_dashboards p) -> In (VDict m a b) es -> problem p m
| pr_name n k : k = count_occ string_dec (map fst (vp_dashboards p)) n -> 2 <= k ->
    problem p ("Dashboard name " ++ n ++ " appears " ++ nat_str k ++ " times, make sure dashboard names are unique")%string.

(** ** Cleaning *)
Lemma messages_app a b : messages (a ++ b) = messages a ++ messages b.
Proof. apply flat_map_app. Qed.
Lemma messages_In l m : In m (messages l) <-> exists a b, In (VDict m a b) l.
Proof.
  unfold messages. rewrite in_flat_map. split.
  - intros [[m' a b|t] [I H]]; [|destruct H]. destruct H as [<-|[]]. eauto.
  - intros [a [b I]]. exists (VDict m a b). split; auto. now left.
Qed.
Lemma clean_app seen l e : clean seen (l ++ [e]) =
  clean seen l ++ match e with VDict m _ _ => if mem m seen || mem m (messages l) then [] else [e] | VOther _ => [] end.
Proof.
  revert seen. induction l as [|[m a b|t] l IH]; intros seen.
  - destruct e as [m a b|t]; [|reflexivity]. cbn. rewrite orb_false_r. destruct (mem m seen); reflexivity.
  - cbn [app clean]. destruct (mem m seen) eqn:M.
    + rewrite IH. f_equal. destruct e as [k a' b'|t]; [|reflexivity]. cbn [messages flat_map app]. unfold mem at 4. cbn [existsb].
      destruct (String.eqb_spec k m) as [->|N]; [rewrite M; reflexivity|]. reflexivity.
    + rewrite IH. cbn [app]. f_equal. f_equal. destruct e as [k a' b'|t]; [|reflexivity].
      change (messages (VDict m a b :: l)) with (m :: messages l). unfold mem. cbn [existsb]. destruct (String.eqb k m), (existsb (String.eqb k) seen); reflexivity.
  - cbn [app clean]. rewrite IH. reflexivity.
Qed.
Lemma clean_firsts l : firsts_of l (clean [] l).
Proof.
  induction l as [|e l IH] using rev_ind; [constructor|]. rewrite clean_app. destruct e as [m a b|t].
  - cbn [mem existsb orb]. destruct (mem m (messages l)) eqn:M.
    + rewrite app_nil_r. apply fo_again; auto. now apply mem_In.
    + apply fo_keep; auto. now apply mem_false.
  - rewrite app_nil_r. now constructor.
Qed.
Lemma firsts_messages l r : firsts_of l r -> forall m, In m (messages r) <-> In m (messages l).
Proof.
  induction 1 as [|l r m v f H IH N|l r m v f H IH N|l r t H IH]; intros k; [tauto| | |]; rewrite ?messages_app, ?in_app_iff, ?IH; cbn [messages flat_map app In]; intuition.
  subst. auto.
Qed.
Lemma firsts_NoDup l r : firsts_of l r -> NoDup (messages r).
Proof.
  induction 1 as [|l r m v f H IH N|l r m v f H IH N|l r t H IH]; auto; [constructor|]. rewrite messages_app. cbn [messages flat_map app].
  apply (Permutation.Permutation_NoDup (l := m :: messages r)); [apply Permutation.Permutation_cons_append|]. constructor; auto. now rewrite (firsts_messages _ _ H).
Qed.
(** the relation leaves no choice *)
Lemma firsts_unique l r r' : firsts_of l r -> firsts_of l r' -> r = r'.
Proof.
  intros H. revert r'. induction H as [|l r m v f H IH N|l r m v f H IH N|l r t H IH]; intros r' K; inversion K as [E|l' x m' v' f' K' N' E|l' x m' v' f' K' N' E|l' x t' K' E]; subst;
    try (destruct l; discriminate); try (destruct l'; discriminate); try reflexivity; apply app_inj_tail in E; destruct E as [-> E]; try discriminate; try (injection E as -> -> ->); try (injection E as ->); try contradiction; try (rewrite (IH _ K'); reflexivity); now apply IH.
Qed.

(** ** The pieces *)
Lemma models_part_ok l : (forall o, In o l -> exists es, o = Done es) -> forall acc, exists es, models_part l acc = Ok (inr (acc ++ es))
  /\ forall e, In e es <-> exists x, In (Done x) l /\ In e x.
Proof.
  induction l as [|o l IH]; intros H acc.
  - exists []. cbn. rewrite app_nil_r. split; auto. intros e. split; [tauto|]. intros [x [[] _]].
  - destruct (H o (or_introl eq_refl)) as [x ->]. destruct (IH (fun o I => H o (or_intror I)) (acc ++ x)) as [es [E S]]. exists (x ++ es). cbn [models_part]. rewrite E, <- app_assoc.
    split; auto. intros e. rewrite in_app_iff, S. cbn [In]. split.
    + intros [I|[y [J K]]]; eauto.
    + intros [y [[J|J] K]]; [injection J as ->; auto|]. eauto.
Qed.
Definition view_errors (required : list string) (v : vview) (rs : list refitem) : list verr :=
  filters_part required v ++ (match vw_table v with RQuery t => [VDict (t ++ " in the view " ++ vw_name v)%string (Some (vw_name v)) None] | _ => [] end)
  ++ flat_map (ref_error (vw_name v)) rs ++ vw_errors v.
Definition refs_of (v : vview) : list refitem := match vw_refs v with Done rs => rs | _ => [] end.
Lemma views_part_ok required vs : (forall v, In v vs -> (exists rs, vw_refs v = Done rs) /\ (vw_table v = Done tt \/ exists t, vw_table v = RQuery t)) ->
  forall old acc, views_part required vs old acc = Ok (acc ++ flat_map (fun v => view_errors required v (refs_of v)) vs).
Proof.
  induction vs as [|v vs IH]; intros H old acc; [cbn; now rewrite app_nil_r|].
  destruct (H v (or_introl eq_refl)) as [[rs R] T]. specialize (IH (fun w I => H w (or_intror I))). cbn [views_part flat_map]. cbv zeta. unfold view_errors, refs_of. rewrite R.
  destruct T as [T|[t T]]; rewrite T; rewrite IH; unfold view_errors, refs_of; rewrite <- ?app_assoc; reflexivity.
Qed.
Lemma view_errors_spec required v m : (exists rs, vw_refs v = Done rs) -> (In m (messages (view_errors required v (refs_of v))) <-> view_problem required v m).
Proof.
  intros [rs R]. unfold view_errors, refs_of. rewrite R, !messages_app, !in_app_iff. split.
  - intros [H|[H|[H|H]]].
    + unfold filters_part in H. apply messages_In in H. destruct H as [x [y H]]. apply in_flat_map in H. destruct H as [a [I H]]. destruct (vw_filters v) as [|f fs] eqn:F.
      * destruct H as [H|[]]. injection H as <- _ _. now apply vp_no_filter.
      * rewrite <- F in H. destruct (forallb (fun f => negb (String.eqb f a)) (vw_filters v)) eqn:B; [|destruct H]. destruct H as [H|[]]. injection H as <- _ _.
        apply vp_filter; auto; [now rewrite F|]. rewrite forallb_forall in B. intros J. specialize (B a J). now rewrite String.eqb_refl in B.
    + destruct (vw_table v) as [u|t|t|e] eqn:T; cbn in H; try tauto. destruct H as [<-|[]]. now apply vp_table.
    + apply messages_In in H. destruct H as [x [y H]]. apply in_flat_map in H. destruct H as [[|f t] [I H]]; [destruct H|]. unfold ref_error in H.
      destruct (contains warning t) eqn:W; destruct H as [H|[]]; injection H as <- _ _; [eapply (vp_warning required v rs f t)|eapply (vp_reference required v rs f t)]; eauto.
    + apply messages_In in H. destruct H as [a [b H]]. eapply vp_own; eauto.
  - intros P. destruct P as [a I F|a I F N|t T|rs' f t R' I W|rs' f t R' I W|m a b I].
    + left. apply messages_In. eexists. eexists. unfold filters_part. apply in_flat_map. exists a. split; auto. rewrite F. left. reflexivity.
    + left. apply messages_In. eexists. eexists. unfold filters_part. apply in_flat_map. exists a. split; auto. destruct (vw_filters v) as [|g gs] eqn:G; [congruence|].
      assert (B : forallb (fun f => negb (String.eqb f a)) (g :: gs) = true).
      { apply forallb_forall. intros x J. apply negb_true_iff. apply String.eqb_neq. intros ->. contradiction. }
      rewrite B. left. reflexivity.
    + right. left. rewrite T. now left.
    + assert (rs' = rs) as -> by congruence. right. right. left. apply messages_In. eexists. eexists. apply in_flat_map. exists (RMissing f t). split; auto. unfold ref_error, warning. rewrite W. left. reflexivity.
    + assert (rs' = rs) as -> by congruence. right. right. left. apply messages_In. eexists. eexists. apply in_flat_map. exists (RMissing f t). split; auto. unfold ref_error, warning. rewrite W. left. reflexivity.
    + right. right. right. apply messages_In. eauto.
Qed.
Lemma name_errors_spec l m : sorted more l -> (In m (messages (name_errors l)) <->
  exists n k, In (n, k) l /\ 2 <= k /\ m = ("Dashboard name " ++ n ++ " appears " ++ nat_str k ++ " times, make sure dashboard names are unique")%string).
Proof.
  induction 1 as [|[n k] l Hx Hl IH]; cbn [name_errors]; [split; [intros []|intros [n [k [[] _]]]]|].
  destruct (Nat.ltb_spec 1 k) as [L|L].
  - change (messages (perr ("Dashboard name " ++ n ++ " appears " ++ nat_str k ++ " times, make sure dashboard names are unique")%string :: name_errors l))
      with (("Dashboard name " ++ n ++ " appears " ++ nat_str k ++ " times, make sure dashboard names are unique")%string :: messages (name_errors l)).
    cbn [In]. rewrite IH. split.
    + intros [<-|[n' [k' [I [J ->]]]]]; [exists n, k; auto|exists n', k'; auto].
    + intros [n' [k' [[I|I] [J ->]]]]; [injection I as -> ->; now left|right; eauto].
  - split; [intros []|]. intros [n' [k' [[I|I] [J ->]]]].
    + injection I as -> ->. lia.
    + specialize (Hx (n', k') I). unfold more in Hx. cbn [snd] in Hx. apply Nat.leb_le in Hx. lia.
Qed.
Lemma occ_count n l : occ String.eqb n l = count_occ string_dec l n.
Proof.
  unfold occ. induction l as [|x l IH]; [reflexivity|]. cbn [filter count_occ]. destruct (string_dec x n) as [->|N].
  - rewrite String.eqb_refl. cbn [List.length]. now rewrite IH.
  - destruct (String.eqb_spec n x); [congruence|exact IH].
Qed.
Lemma dashboard_names_spec ds m : In m (messages (dashboard_names ds)) <->
  exists n k, k = count_occ string_dec (map fst ds) n /\ 2 <= k /\ m = ("Dashboard name " ++ n ++ " appears " ++ nat_str k ++ " times, make sure dashboard names are unique")%string.
Proof.
  unfold dashboard_names. rewrite name_errors_spec by apply most_common_sorted. split.
  - intros [n [k [I [L ->]]]]. apply (most_common_In String.eqb String.eqb_spec) in I. destruct I as [_ ->]. exists n, (count_occ string_dec (map fst ds) n). rewrite <- occ_count. auto.
  - intros [n [k [-> [L ->]]]]. exists n, (count_occ string_dec (map fst ds) n). repeat split; auto. apply (most_common_In String.eqb String.eqb_spec). rewrite occ_count. split; auto.
    apply (count_occ_In string_dec). lia.
Qed.

(** ** C45 *)
(** the raw list, part by part *)
Definition raw (p : vproject) (models joins : list verr) : list verr :=
  (models ++ joins ++ tags_part (vp_tags p)) ++ flat_map (fun v => view_errors (vp_required p) v (refs_of v)) (vp_views p)
  ++ flat_map snd (vp_dashboards p) ++ dashboard_names (vp_dashboards p).
Lemma raw_spec p models joins m : checkable p -> vp_joins p = Done joins -> (forall e, In e models <-> exists x, In (Done x) (vp_models p) /\ In e x) ->
  (In m (messages (raw p models joins)) <-> problem p m).
Proof.
  intros [_ [_ V]] J M. unfold raw. rewrite !messages_app, !in_app_iff, dashboard_names_spec. split.
  - intros [[H|[H|H]]|[H|[H|H]]].
    + apply messages_In in H. destruct H as [a [b H]]. apply M in H. destruct H as [x [A B]]. eapply pr_model; eauto.
    + apply messages_In in H. destruct H as [a [b H]]. eapply pr_joins; eauto.
    + apply messages_In in H. destruct H as [a [b H]]. unfold tags_part in H. apply in_flat_map in H. destruct H as [o [I H]]. destruct o as [u|t|t|e]; cbn [In] in H; try tauto. destruct H as [H|[]].
      injection H as <- _ _. now apply pr_tag.
    + apply messages_In in H. destruct H as [a [b H]]. apply in_flat_map in H. destruct H as [v [I H]]. eapply pr_view; eauto. apply view_errors_spec; [now apply V|]. apply messages_In. eauto.
    + apply messages_In in H. destruct H as [a [b H]]. apply in_flat_map in H. destruct H as [[n es] [I H]]. eapply pr_dashboard; eauto.
    + destruct H as [n [k [E [L ->]]]]. now apply pr_name.
  - intros H. destruct H as [es m a b I K|es m a b E K|t I|v m I P|n es m a b I K|n k E L].
    + left. left. apply messages_In. exists a, b. apply M. eauto.
    + left. right. left. assert (es = joins) as -> by congruence. apply messages_In. eauto.
    + left. right. right. apply messages_In. exists None, None. unfold tags_part. apply in_flat_map. exists (RQuery t). split; auto. now left.
    + right. left. apply view_errors_spec in P; [|now apply V]. apply messages_In in P. destruct P as [a [b P]]. apply messages_In. exists a, b. apply in_flat_map. eauto.
    + right. right. left. apply messages_In. exists a, b. apply in_flat_map. exists (n, es). auto.
    + right. right. right. exists n, k. auto.
Qed.
(** When every check can be made: each problem's message is reported, nothing else is, and none twice. *)
Theorem C45_complete_partial : forall p, checkable p -> exists es, validate p = Ok es
  /\ NoDup (messages es) /\ (forall m, In m (messages es) <-> problem p m) /\ (forall t, ~ In (VOther t) es).
Proof.
  intros p C. destruct (C) as [M [[js J] V]]. unfold validate. destruct (models_part_ok _ M []) as [ms [E S]]. cbn [app] in E. rewrite E. cbn [bind]. rewrite J.
  rewrite (views_part_ok _ _ V). cbn [bind]. rewrite <- app_assoc. exists (clean [] (raw p ms js)). split; [reflexivity|].
  assert (F := clean_firsts (raw p ms js)). split; [eapply firsts_NoDup; eauto|]. split.
  - intros m. rewrite (firsts_messages _ _ F). now apply raw_spec.
  - intros t. generalize (raw p ms js). clear. intros l. generalize (@nil string). induction l as [|[m a b|t'] l IH]; intros seen; cbn [clean]; [tauto| |auto].
    destruct (mem m seen); auto. intros [H|H]; [discriminate|]. eapply IH; eauto.
Qed.
Print Assumptions C45_complete_partial.
(** The order is that of first occurrence, and of errors with one message the first is kept. *)
Theorem C45_order : forall p, checkable p -> exists es ms js, validate p = Ok es /\ vp_joins p = Done js
  /\ models_part (vp_models p) [] = Ok (inr ms) /\ firsts_of (raw p ms js) es /\ forall es', firsts_of (raw p ms js) es' -> es' = es.
Proof.
  intros p C. destruct (C) as [M [[js J] V]]. destruct (models_part_ok _ M []) as [ms [E S]]. cbn [app] in E. exists (clean [] (raw p ms js)), ms, js.
  assert (F := clean_firsts (raw p ms js)). split.
  - unfold validate. rewrite E. cbn [bind]. rewrite J, (views_part_ok _ _ V). cbn [bind]. rewrite <- app_assoc. reflexivity.
  - repeat split; auto. intros es' F'. eapply firsts_unique; eauto.
Qed.
Print Assumptions C45_order.
(** Every dashboard name used more than once is reported with its number of uses, and no other name. *)
Theorem C45_dashboard_names : forall ds m, In m (messages (dashboard_names ds)) <->
  exists n k, k = count_occ string_dec (map fst ds) n /\ 2 <= k /\ m = ("Dashboard name " ++ n ++ " appears " ++ nat_str k ++ " times, make sure dashboard names are unique")%string.
Proof. exact dashboard_names_spec. Qed.
Print Assumptions C45_dashboard_names.

Definition good_view (n : string) : vview := VView n ["region"] (Done tt) (Done [RField; RMissing "total" "orders.amout"]) [].
Definition shop : vproject :=
  VProject [Done [perr "bad timezone"]] (Done []) [Done tt; RQuery "Multiple fields found for the name customer"; ROther AttributeError] ["region"]
    [good_view "orders"; VView "items" [] (RQuery "No table") (Done [RMissing "tax" "Warning: rate"]) [perr "bad timezone"]]
    [("sales", []); ("ops", [perr "missing field"]); ("sales", [perr "missing field"])].
Example shop_checkable : checkable shop.
Proof.
  split; [|split].
  - intros o [<-|[]]. eauto.
  - exists []. reflexivity.
  - intros v [<-|[<-|[]]]; cbn; (split; [eauto|]); [now left|right; eauto].
Qed.
Example shop_messages : exists es, validate shop = Ok es /\ messages es =
  ["bad timezone"; "Multiple fields found for the tag customer. Only one field can have the tag ""customer"" per joinable graph.";
   "Could not locate reference orders.amout in field total in view orders";
   "View items does not have any access filters, but an access filter with user attribute region is required.";
   "No table in the view items"; "Warning: Could not locate reference rate in field tax in view items"; "missing field";
   "Dashboard name sales appears 2 times, make sure dashboard names are unique"].
Proof. eexists. split; vm_compute; reflexivity. Qed.

(** ** Where the statement fails *)
(** One model that cannot be built hides the errors of all others. *)
Theorem C45_lost_refuted : forall before after es t p m, vp_models p = map Done before ++ RQuery t :: after -> In es before -> In m (messages es) -> m <> t ->
  validate p = Ok [perr t] /\ problem p m /\ ~ In m (messages [perr t]).
Proof.
  intros before after es t p m H I K N. split; [|split].
  - assert (E : forall acc, models_part (map Done before ++ RQuery t :: after) acc = Ok (inl [perr t])).
    { clear. induction before as [|x before IH]; intros acc; [reflexivity|]. cbn [map app models_part]. apply IH. }
    unfold validate. rewrite H, E. reflexivity.
  - apply messages_In in K. destruct K as [a [b K]]. eapply (pr_model p es); eauto. rewrite H. apply in_or_app. left. now apply in_map.
  - cbn. intros [E|[]]. congruence.
Qed.
Print Assumptions C45_lost_refuted.
(** When the references of the first view cannot be read validate itself fails, whatever the rest of the project is. *)
Theorem C45_unbound_refuted : forall p ms js v vs t, models_part (vp_models p) [] = Ok (inr ms) -> vp_joins p = Done js -> vp_views p = v :: vs ->
  vw_table v = Done tt -> vw_refs v = RQuery t \/ vw_refs v = RDenied t -> validate p = Err UnboundLocal.
Proof.
  intros p ms js v vs t M J V T R. unfold validate. rewrite M. cbn [bind]. rewrite J, V. cbn [views_part]. cbv zeta. rewrite T. destruct R as [R|R]; rewrite R; reflexivity.
Qed.
Print Assumptions C45_unbound_refuted.
(** For a later view the references of the one before are reported again under its name: a message that is no problem
    of the project. *)
Definition stale : vproject :=
  VProject [] (Done []) [] [] [good_view "orders"; VView "items" ["region"] (Done tt) (RDenied "hidden field") []] [].
Theorem C45_stale_refuted : exists es m, validate stale = Ok es /\ In m (messages es) /\ ~ problem stale m.
Proof.
  eexists. exists "Could not locate reference orders.amout in field total in view items". split; [vm_compute; reflexivity|]. split; [cbn; auto|]. intros H.
  remember "Could not locate reference orders.amout in field total in view items" as m eqn:E.
  destruct H as [es m a b I K|es m a b F K|t I|v m I P|n es m a b I K|n k F L].
  - destruct I.
  - injection F as <-. destruct K.
  - destruct I.
  - destruct I as [<-|[<-|[]]]; destruct P as [a I F|a I F N|t T|rs f t R I W|rs f t R I W|m a b I]; try discriminate; try (injection R as <-); cbn [In stale vp_required vw_errors good_view] in I; try contradiction.
    + destruct I as [I|[I|[]]]; [discriminate|]. injection I as <- <-. discriminate.
  - destruct I.
  - discriminate.
Qed.
Print Assumptions C45_stale_refuted.

(** A model or the joins that raise anything but a query error end validate with the same error; a query error of a tag is reported by its
    first line *)
Theorem C45_raises : forall p before after e,
  (vp_models p = map Done before ++ RDenied e :: after -> validate p = Err AccessDenied) /\
  (forall x, vp_models p = map Done before ++ ROther x :: after -> validate p = Err x) /\
  (vp_models p = map Done before -> vp_joins p = RDenied e -> validate p = Err AccessDenied) /\
  (forall x, vp_models p = map Done before -> vp_joins p = ROther x -> validate p = Err x) /\
  (vp_models p = map Done before -> vp_joins p = RQuery e -> validate p = Ok [VDict e None None]).
Proof.
  intros p before after e.
  assert (M : forall l acc, models_part (map Done before ++ l) acc = models_part l (acc ++ List.concat before)).
  { intros l. induction before as [|x b IH]; intros acc; cbn [map app models_part List.concat]; [now rewrite app_nil_r|]. now rewrite IH, <- app_assoc. }
  assert (M0 := M []). rewrite app_nil_r in M0. unfold validate.
  split; [intros -> | split; [intros x ->| split; [intros -> J | split; [intros x -> J | intros -> J]]]]; rewrite ?M, ?M0; cbn [models_part bind]; rewrite ?J; reflexivity.
Qed.
Print Assumptions C45_raises.
Theorem C45_tag_line : forall a b, has_char (Ascii.ascii_of_nat 10) a = false -> contains " name " (a ++ String (Ascii.ascii_of_nat 10) b) = false ->
  tag_text (a ++ String (Ascii.ascii_of_nat 10) b) = (a ++ ". Only one field can have the tag ""customer"" per joinable graph.")%string.
Proof.
  intros a b N C. unfold tag_text. rewrite replace_none by exact C. f_equal. unfold first_line.
  assert (S : exists r, split_char (Ascii.ascii_of_nat 10) (a ++ String (Ascii.ascii_of_nat 10) b) = a :: r).
  { clear C. induction a as [|c a IH]; [eexists; reflexivity|]. cbn [has_char] in N. apply orb_false_iff in N. destruct N as [N1 N2]. destruct (IH N2) as [r R]. exists r.
    cbn [append split_char]. rewrite Ascii.eqb_sym in N1. rewrite ?N1. rewrite Ascii.eqb_sym in N1. rewrite ?N1. rewrite R. reflexivity. }
  destruct S as [r ->]. reflexivity.
Qed.
Print Assumptions C45_tag_line.

(** ** Where an error is said to be *)
(** The view and the field an error names are those in which it was found: a required access filter or a table that
    is missing names the view, a reference that is missing names the view and the field; the checks of models,
    joins, views and dashboards keep the place they give; tags and dashboard names have none. *)
Inductive placed (p : vproject) : string -> option string -> option string -> Prop :=
| pl_model es m a b : In (Done es) (vp_models p) -> In (VDict m a b) es -> placed p m a b
| pl_joins es m a b : vp_joins p = Done es -> In (VDict m a b) es -> placed p m a b
| pl_tag t : In (RQuery t) (vp_tags p) -> placed p (tag_text t) None None
| pl_name n k : 2 <= k -> placed p ("Dashboard name " ++ n ++ " appears " ++ nat_str k ++ " times, make sure dashboard names are unique")%string None None
| pl_filter v m r : In v (vp_views p) -> In r (vp_required p) -> ~ In r (vw_filters v) -> placed p m (Some (vw_name v)) None
| pl_table v t : In v (vp_views p) -> vw_table v = RQuery t -> placed p (t ++ " in the view " ++ vw_name v)%string (Some (vw_name v)) None
| pl_reference v rs f t m : In v (vp_views p) -> vw_refs v = Done rs -> In (RMissing f t) rs -> placed p m (Some (vw_name v)) (Some f)
| pl_own v m a b : In v (vp_views p) -> In (VDict m a b) (vw_errors v) -> placed p m a b
| pl_dashboard n es m a b : In (n, es) (vp_dashboards p) -> In (VDict m a b) es -> placed p m a b.
Theorem C45_placed : forall p es m a b, checkable p -> validate p = Ok es -> In (VDict m a b) es -> placed p m a b.
Proof.
  intros p es m a b C H I. destruct (C) as [M [[js J] V]]. unfold validate in H. destruct (models_part_ok _ M []) as [ms [E SS]]. cbn [app] in E. rewrite E in H. cbn [bind] in H. rewrite J in H.
  rewrite (views_part_ok _ _ V) in H. cbn [bind] in H. injection H as <-.
  assert (CL : forall l seen, In (VDict m a b) (clean seen l) -> In (VDict m a b) l).
  { clear. induction l as [|[x y z|t] l IH]; intros seen H; cbn [clean] in H; [destruct H| |right; eauto].
    destruct (mem x seen); [right; eauto|]. destruct H as [H|H]; [left; exact H|right; eauto]. }
  apply CL in I. clear CL. rewrite !in_app_iff in I. destruct I as [[[I|[I|I]]|I]|[I|I]].
  - apply SS in I. destruct I as [x [X Y]]. eapply pl_model; eauto.
  - eapply pl_joins; eauto.
  - unfold tags_part in I. apply in_flat_map in I. destruct I as [o [O I]]. destruct o as [u|t|t|e]; cbn [In] in I; try tauto. destruct I as [I|[]]. injection I as <- <- <-. now apply pl_tag.
  - apply in_flat_map in I. destruct I as [v [IV I]]. unfold view_errors in I. rewrite !in_app_iff in I. destruct I as [I|[I|[I|I]]].
    + unfold filters_part in I. apply in_flat_map in I. destruct I as [r [R I]]. destruct (vw_filters v) as [|f fs] eqn:F.
      * destruct I as [I|[]]. injection I as _ <- <-. apply (pl_filter p v m r); auto. rewrite F. intros [].
      * destruct (forallb _ (f :: fs)) eqn:B; [|destruct I]. destruct I as [I|[]]. injection I as _ <- <-. apply (pl_filter p v m r); auto.
        rewrite F. intros K. rewrite forallb_forall in B. specialize (B r K). now rewrite String.eqb_refl in B.
    + destruct (vw_table v) as [u|t|t|e] eqn:T; cbn [In] in I; try tauto. destruct I as [I|[]]. injection I as <- <- <-. now apply pl_table.
    + apply in_flat_map in I. destruct I as [[|f t] [R I]]; [destruct I|]. unfold ref_error in I. destruct (V v IV) as [[rs RS] _]. unfold refs_of in R. rewrite RS in R.
      destruct (contains warning t); destruct I as [I|[]]; injection I as _ <- <-; eapply pl_reference; eauto.
    + eapply pl_own; eauto.
  - apply in_flat_map in I. destruct I as [[n es] [IN I]]. eapply pl_dashboard; eauto.
  - unfold dashboard_names in I. revert I. generalize (most_common String.eqb (map fst (vp_dashboards p))). clear. induction l as [|[n k] l IH]; cbn [name_errors]; [intros []|].
    destruct (Nat.ltb_spec 1 k) as [L|L]; [|intros []]. intros [I|I]; [injection I as <- <- <-; apply pl_name; lia|exact (IH I)].
Qed.
Print Assumptions C45_placed.
Example shop_placed : exists es, validate shop = Ok es /\ In (VDict "Could not locate reference orders.amout in field total in view orders" (Some "orders") (Some "total")) es.
Proof. eexists. split; [vm_compute; reflexivity|]. vm_compute. auto. Qed.
