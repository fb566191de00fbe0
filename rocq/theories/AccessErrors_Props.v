(** C01, C03: when a listing or lookup is refused, both ways, and what the order of views decides when two of them share a name.
    Specification: Access_Spec.v. *)
From Verif Require Import PyBase PyStr Core_Model Access_Spec Access_Proofs Access_Props.
Local Open Scope string_scope.
Local Open Scope list_scope.

Lemma unknown_refused p r : names_unknown_grant p r -> can_access_object p r = Err QueryError.
Proof. intros H. apply can_access_object_err. split; [reflexivity | exact H]. Qed.
Lemma known_views p : (forall v, In v (p_views p) -> ~ names_unknown_grant p (vd_grants v)) -> exists vs, views p true = Ok vs.
Proof.
  intros H. destruct (views p true) as [vs|e] eqn:E; [eauto|]. apply views_err in E. destruct E as [_ [v [A B]]]. destruct (H v A B).
Qed.
Lemma view_fields_refused p v sh e x : ~ names_unknown_grant p (vd_grants v) ->
  (view_fields p v sh e = Err x <-> x = QueryError /\ exists fd, In fd (vd_fields v) /\ names_unknown_grant p (fd_grants fd)).
Proof.
  intros K. split.
  - intros H. apply view_fields_err in H. destruct H as [-> [fd [A [B|B]]]]; [destruct (K B)|]. eauto.
  - intros [-> [fd [A B]]]. destruct (view_fields p v sh e) as [fs|y] eqn:E.
    + unfold view_fields in E. apply bind_ok in E. destruct E as [gs [G _]]. unfold view_all_fields in G.
      destruct (concatM_ok_all _ _ _ G fd A) as [zs Z]. apply bind_ok in Z. destruct Z as [b [Z _]].
      unfold can_access_field in Z. apply bind_ok in Z. destruct Z as [c [_ Z]]. rewrite (unknown_refused _ _ B) in Z. discriminate.
    + apply view_fields_err in E. destruct E as [-> _]. reflexivity.
Qed.

(** fields() fails exactly when a view names a grant that does not exist, or a field of a view the user may see does. *)
Theorem C01_fields_refused p sh ex e :
  fields p None sh ex = Err e <->
  e = QueryError /\
  ((exists v, In v (p_views p) /\ names_unknown_grant p (vd_grants v)) \/
   exists v fd, In v (p_views p) /\ permitted p (vd_grants v) /\ In fd (vd_fields v) /\ names_unknown_grant p (fd_grants fd)).
Proof.
  cbn [fields]. rewrite bind_err. split.
  - intros [H|[vs [V H]]].
    + apply views_err in H. tauto.
    + apply concatM_err in H. destruct H as [v [I H]]. apply views_spec in V. destruct V as [_ V]. apply V in I.
      destruct I as [I [P _]]. apply view_fields_refused in H; [|exact (not_both p _ P)]. destruct H as [-> [fd [A B]]].
      split; [reflexivity|]. right. exists v, fd. auto.
  - intros [-> H]. destruct (views p true) as [vs|x] eqn:V.
    + right. exists vs. split; [reflexivity|]. destruct H as [H|[v [fd [A [P [I U]]]]]].
      * assert (Q : views p true = Err QueryError) by (apply views_err; auto). congruence.
      * pose proof (views_spec _ _ _ V) as [_ S].
        assert (Iv : In v vs) by (apply S; auto).
        destruct (concatM (fun v => view_fields p v sh ex) vs) as [fs|y] eqn:C.
        -- destruct (concatM_ok_all _ _ _ C v Iv) as [zs Z].
           assert (Q : view_fields p v sh ex = Err QueryError) by (apply view_fields_refused; [exact (not_both p _ P) | eauto]). congruence.
        -- apply concatM_err in C. destruct C as [w [_ C]]. apply view_fields_err in C. destruct C as [-> _]. reflexivity.
    + left. apply views_err in V. destruct V as [-> _]. reflexivity.
Qed.
Print Assumptions C01_fields_refused.

(** The fields of one view: exactly those whose own grants are satisfied, of the first view of that name the user may see. *)
Theorem C01_fields_of_a_view p n sh ex fs : fields p (Some n) sh ex = Ok fs ->
  exists v, get_view p n = Ok v /\
  forall f, In f fs <->
    (exists fd, In fd (vd_fields v) /\ permitted p (fd_grants fd) /\ stands_for v fd ex f) /\ (sh = true \/ fo_hidden f = false).
Proof.
  intros H. destruct (fields_view_In _ _ _ _ _ H) as [v [V S]]. exists v. split; [exact V|]. intros f. rewrite S.
  apply get_view_sound in V. destruct V as [_ [_ P]]. unfold field_permitted.
  split; (intros [[fd [A [B C]]] D]; split; [|exact D]; exists fd; tauto).
Qed.
Print Assumptions C01_fields_of_a_view.

(** get_view fails with QueryError when a view names an unknown grant, and otherwise when the user may see no view of that name. *)
Theorem C01_view_refused p n e :
  get_view p n = Err e <->
  e = QueryError /\ (exists v, In v (p_views p) /\ names_unknown_grant p (vd_grants v)) \/
  e = AccessDenied /\ (forall v, In v (p_views p) -> ~ names_unknown_grant p (vd_grants v)) /\
    (forall v, In v (p_views p) -> vd_name v = n -> ~ permitted p (vd_grants v)).
Proof.
  split.
  - intros H. destruct (get_view_err _ _ _ H) as [A|[A B]]; [left; exact A|]. right. split; [exact A|]. split; [|exact B].
    intros v I U. subst e. unfold get_view in H. apply bind_err in H. destruct H as [H|[vs [V _]]].
    + apply views_err in H. destruct H as [H _]. discriminate.
    + assert (Q : views p true = Err QueryError) by (apply views_err; eauto). congruence.
  - intros [[-> H]|[-> [K N]]].
    + unfold get_view. assert (Q : views p true = Err QueryError) by (apply views_err; eauto). rewrite Q. reflexivity.
    + destruct (get_view p n) as [v|e] eqn:G.
      * apply get_view_sound in G. destruct G as [A [B C]]. destruct (N v A B C).
      * destruct (get_view_err _ _ _ G) as [[-> [v [A B]]]|[-> _]]; [destruct (K v A B) | reflexivity].
Qed.
Print Assumptions C01_view_refused.

(** get_dashboard: the first dashboard the user may see whose name, lower-cased, is the name given; the name given is not lower-cased.
    It fails with QueryError when a dashboard names an unknown grant, and otherwise when there is none such. *)
Theorem C01_dashboard_found p n :
  (forall d, get_dashboard p n = Ok d <->
     (forall w, In w (p_dashboards p) -> ~ names_unknown_grant p (dd_grants w)) /\
     exists pre post, p_dashboards p = pre ++ d :: post /\ lower (dd_name d) = n /\ permitted p (dd_grants d) /\
       forall w, In w pre -> lower (dd_name w) = n -> ~ permitted p (dd_grants w)) /\
  (forall e, get_dashboard p n = Err e <->
     e = QueryError /\ (exists d, In d (p_dashboards p) /\ names_unknown_grant p (dd_grants d)) \/
     e = AccessDenied /\ (forall d, In d (p_dashboards p) -> ~ names_unknown_grant p (dd_grants d)) /\
       (forall d, In d (p_dashboards p) -> lower (dd_name d) = n -> ~ permitted p (dd_grants d))).
Proof.
  assert (L : forall keep (l : list dash_def), (forall d, In d l -> (keep d = true <-> permitted p (dd_grants d))) ->
    (forall d, find (fun d => String.eqb (lower (dd_name d)) n) (filter keep l) = Some d <->
       exists pre post, l = pre ++ d :: post /\ lower (dd_name d) = n /\ permitted p (dd_grants d) /\
         forall w, In w pre -> lower (dd_name w) = n -> ~ permitted p (dd_grants w)) /\
    (find (fun d => String.eqb (lower (dd_name d)) n) (filter keep l) = None <->
       forall d, In d l -> lower (dd_name d) = n -> ~ permitted p (dd_grants d))).
  { intros keep l. induction l as [|x l IH]; intros K.
    - cbn. split; [|split; [intros _ d [] | reflexivity]]. intro d. split; [discriminate|].
      intros [pre [post [E _]]]. destruct pre; discriminate.
    - destruct (IH (fun d I => K d (or_intror I))) as [A B]. pose proof (K x (or_introl eq_refl)) as Kx.
      assert (S : forall d, (exists pre post, x :: l = pre ++ d :: post /\ lower (dd_name d) = n /\ permitted p (dd_grants d) /\
                    forall w, In w pre -> lower (dd_name w) = n -> ~ permitted p (dd_grants w)) <->
                  (x = d /\ lower (dd_name x) = n /\ permitted p (dd_grants x)) \/
                  (~ (lower (dd_name x) = n /\ permitted p (dd_grants x)) /\
                   exists pre post, l = pre ++ d :: post /\ lower (dd_name d) = n /\ permitted p (dd_grants d) /\
                     forall w, In w pre -> lower (dd_name w) = n -> ~ permitted p (dd_grants w))).
      { intro d. split.
        - intros [[|y pre] [post [E [N [P F]]]]]; injection E as <- E; [left; auto|]. right.
          split; [intros [U V]; exact (F x (or_introl eq_refl) U V)|]. exists pre, post. subst l. split; [reflexivity|]. split; [exact N|]. split; [exact P|].
          intros w I. apply F. now right.
        - intros [[<- [N P]]|[N [pre [post [-> [M [P F]]]]]]].
          + exists [], l. split; [reflexivity|]. split; [exact N|]. split; [exact P|]. intros w [].  
          + exists (x :: pre), post. split; [reflexivity|]. split; [exact M|]. split; [exact P|]. intros w [<-|I]; [tauto | apply F; exact I]. }
      cbn [filter]. destruct (keep x) eqn:Ek.
      + cbn [find]. destruct (String.eqb (lower (dd_name x)) n) eqn:En.
        * apply String.eqb_eq in En. assert (Px : permitted p (dd_grants x)) by (apply Kx; reflexivity). split.
          -- intro d. rewrite S. split; [intros H; injection H as ->; left; auto|]. intros [[-> _]|[N _]]; [reflexivity|tauto].
          -- split; [discriminate|]. intros H. destruct (H x (or_introl eq_refl) En Px).
        * apply String.eqb_neq in En. split.
          -- intro d. rewrite A, S. split; [intro H; right; split; [tauto | exact H]|]. intros [[_ [N _]]|[_ H]]; [tauto | exact H].
          -- rewrite B. split; [intros H d [<-|I]; [intros; tauto | apply H; exact I] | intros H d I; apply H; now right].
      + assert (Nx : ~ permitted p (dd_grants x)) by (intro H; apply Kx in H; discriminate). split.
        * intro d. rewrite A, S. split; [intro H; right; split; [tauto | exact H]|]. intros [[_ [_ N]]|[_ H]]; [tauto | exact H].
        * rewrite B. split; [intros H d [<-|I]; [intros; tauto | apply H; exact I] | intros H d I; apply H; now right]. }
  assert (D : (exists d, In d (p_dashboards p) /\ names_unknown_grant p (dd_grants d)) /\ dashboards p = Err QueryError \/
              (forall d, In d (p_dashboards p) -> ~ names_unknown_grant p (dd_grants d)) /\
              exists keep, dashboards p = Ok (filter keep (p_dashboards p)) /\
                forall d, In d (p_dashboards p) -> (keep d = true <-> permitted p (dd_grants d))).
  { destruct (dashboards p) as [ds|e] eqn:E.
    - right. split.
      + intros d I U. assert (Q : dashboards p = Err QueryError) by (apply dashboards_err; eauto). congruence.
      + pose proof (dashboards_spec _ _ E) as [[keep ->] S]. exists keep. split; [reflexivity|].
        intros d I. specialize (S d). rewrite filter_In in S. tauto.
    - left. apply dashboards_err in E. destruct E as [-> E]. auto. }
  unfold get_dashboard. destruct D as [[[d [I U]] D]|[K [keep [D S]]]]; rewrite D; cbn [bind].
  - split; intros z.
    + split; [discriminate|]. intros [N _]. destruct (N d I U).
    + split; [intro H; injection H as <-; left; eauto|]. intros [[-> _]|[_ [N _]]]; [reflexivity | destruct (N d I U)].
  - destruct (L keep (p_dashboards p) S) as [A B]. split; intro z.
    + rewrite <- A. destruct (find _ _) as [y|]; split; try tauto.
      * intro H. injection H as ->. tauto.
      * intros [_ H]. injection H as ->. reflexivity.
      * discriminate.
      * intros [_ H]. discriminate.
    + destruct (find _ _) as [y|] eqn:F.
      * split; [discriminate|]. intros [[_ [d [I U]]]|[_ [_ H]]]; [destruct (K d I U)|]. apply B in H. discriminate.
      * split; [intro H; injection H as <-; right; split; [reflexivity|]; split; [exact K | apply B; reflexivity]|].
        intros [[_ [d [I U]]]|[-> _]]; [destruct (K d I U) | reflexivity].
Qed.
Print Assumptions C01_dashboard_found.

(** A listing that fails because of a field, one that fails because of a view, and a dashboard asked for by its name as written *)
Example C01_refused_case :
  let u := Some [("region", Some "us")] in
  let bad := FieldDef "a" Dimension "string" [] [] false ["nope"] false [] in
  fields (Project ex_grants [ViewDef "v" false [] [bad] []] [] u) None true true = Err QueryError /\
  get_view (Project ex_grants [ViewDef "v" false ["nope"] [] []; ex_customers] [] u) "customers" = Err QueryError /\
  get_view (Project ex_grants [ex_customers] [] u) "v" = Err AccessDenied /\
  get_dashboard (Project ex_grants [] [DashDef "Sales" []] u) "Sales" = Err AccessDenied /\
  get_dashboard (Project ex_grants [] [DashDef "Sales" []] u) "sales" = Ok (DashDef "Sales" []).
Proof. repeat split. Qed.

(** Why C03_independent_of_view_order asks for views with different names: with two views of one name a lookup in that view finds the
    fields of the one listed first. *)
Theorem C03_shared_view_name_refuted :
  exists p vs' n v, Permutation (p_views p) vs' /\
    get_field p n (Some v) <> get_field (same_but_views p vs') n (Some v).
Proof.
  set (f := fun n => FieldDef n Dimension "string" [] [] false [] false []).
  set (a := ViewDef "v" false [] [f "x"] []). set (b := ViewDef "v" false [] [f "y"] []).
  exists (Project [] [a; b] [] None), [b; a], "x", "v". split; [apply perm_swap|]. vm_compute. discriminate.
Qed.
Print Assumptions C03_shared_view_name_refuted.
