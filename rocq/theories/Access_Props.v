(** C01-C04: visibility, lookup and row level access.  Specification: Access_Spec.v. *)
From Verif Require Import PyBase PyStr Core_Model Access_Spec Access_Proofs AccessFilter_Model AccessFilter_Proofs.
Local Open Scope string_scope.
Local Open Scope list_scope.

(* A small project used to show that the hypotheses below are met. *)
Definition ex_grants : list grant :=
  [Grant "dept" "department" ["finance"; "exec"]; Grant "geo" "region" ["us"]].
Definition ex_rev : field_def := FieldDef "Total_Revenue" Measure "sum" [] [] false ["geo"] false ["revenue"].
Definition ex_date : field_def := FieldDef "ordered" DimGroup "time" ["raw"; "date"; "week"] [] false [] false [].
Definition ex_region : field_def := FieldDef "region" Dimension "string" [] [] true [] false [].
Definition ex_orders : view_def := ViewDef "orders" false ["dept"] [ex_rev; ex_date] [("customers.region", "region")].
Definition ex_customers : view_def := ViewDef "customers" false [] [ex_region; ex_date] [("customers.region", "owner")].
Definition ex_proj (u : option user_attrs) : project :=
  Project ex_grants [ex_orders; ex_customers] [DashDef "Sales" ["dept"; "geo"]] u.
Definition ex_user : user_attrs := [("department", Some "finance"); ("region", Some "us"); ("owner", Some "ann")].

(** ** C01 *)

(** An object is admitted iff every grant it names exists and is satisfied by the user. *)
Theorem C01_grants_are_a_conjunction :
  forall (p : project) (required : list string),
    (can_access_object p required = Ok true <-> permitted p required) /\
    (forall e, can_access_object p required = Err e <-> e = QueryError /\ names_unknown_grant p required).
Proof. intros p r; split; [exact (can_access_object_true p r)|intros e; exact (can_access_object_err p r e)]. Qed.
Print Assumptions C01_grants_are_a_conjunction.

Example C01_grants_case :
  can_access_object (ex_proj (Some ex_user)) ["dept"; "geo"] = Ok true /\
  can_access_object (ex_proj (Some [("department", Some "sales")])) ["dept"] = Ok false /\
  can_access_object (ex_proj (Some ex_user)) ["nope"] = Err QueryError.
Proof. repeat split. Qed.

(** views(): a subsequence of the declared views, exactly the permitted ones (hidden ones only on request);
    an unknown grant anywhere is an error. *)
Theorem C01_views_listed :
  forall (p : project) (show_hidden : bool),
    (forall vs, views p show_hidden = Ok vs ->
       (exists keep, vs = filter keep (p_views p)) /\
       forall v, In v vs <-> In v (p_views p) /\ permitted p (vd_grants v) /\
                            (show_hidden = true \/ vd_hidden v = false)) /\
    (forall e, views p show_hidden = Err e <->
       e = QueryError /\ exists v, In v (p_views p) /\ names_unknown_grant p (vd_grants v)).
Proof. intros p sh; split; [exact (views_spec p sh)|intros e; exact (views_err p sh e)]. Qed.
Print Assumptions C01_views_listed.

(** dashboards() likewise. *)
Theorem C01_dashboards_listed :
  forall (p : project),
    (forall ds, dashboards p = Ok ds ->
       (exists keep, ds = filter keep (p_dashboards p)) /\
       forall d, In d ds <-> In d (p_dashboards p) /\ permitted p (dd_grants d)) /\
    (forall e, dashboards p = Err e <->
       e = QueryError /\ exists d, In d (p_dashboards p) /\ names_unknown_grant p (dd_grants d)).
Proof. intros p; split; [exact (dashboards_spec p)|intros e; exact (dashboards_err p e)]. Qed.
Print Assumptions C01_dashboards_listed.

(** fields(): exactly the fields of permitted views whose own grants are satisfied too. *)
Theorem C01_fields_listed :
  forall (p : project) (show_hidden expand : bool) fs,
    fields p None show_hidden expand = Ok fs ->
    forall f, In f fs <-> visible_field p expand f /\ (show_hidden = true \/ fo_hidden f = false).
Proof. exact fields_all_In. Qed.
Print Assumptions C01_fields_listed.

Example C01_fields_case :
  exists fs, fields (ex_proj (Some [("department", Some "finance"); ("region", Some "eu")])) None false true = Ok fs /\
             map field_id fs = ["orders.ordered_date"; "orders.ordered_week"; "customers.ordered_date"; "customers.ordered_week"].
Proof. eexists. split; reflexivity. Qed.

(** get_view(name): the first permitted view of that name. *)
Theorem C01_view_lookup :
  forall (p : project) (n : string) (v : view_def),
    get_view p n = Ok v <->
    (forall w, In w (p_views p) -> ~ names_unknown_grant p (vd_grants w)) /\
    exists pre post, p_views p = pre ++ v :: post /\ vd_name v = n /\ permitted p (vd_grants v) /\
      forall w, In w pre -> vd_name w = n -> ~ permitted p (vd_grants w).
Proof. exact get_view_ok. Qed.
Print Assumptions C01_view_lookup.

Lemma get_dashboard_sound p n d :
  get_dashboard p n = Ok d -> In d (p_dashboards p) /\ lower (dd_name d) = n /\ permitted p (dd_grants d).
Proof.
  unfold get_dashboard. intros H. apply bind_ok in H. destruct H as (ds & Hds & H).
  destruct (find _ ds) as [d'|] eqn:E; [|discriminate]. injection H as ->.
  apply find_some in E. destruct E as [E1 E2]. apply String.eqb_eq in E2.
  apply dashboards_spec in Hds. destruct Hds as [_ Hds]. apply Hds in E1. tauto.
Qed.

(** get_dashboard(name) never returns a forbidden dashboard. *)
Theorem C01_dashboard_lookup :
  forall (p : project) (n : string) (d : dash_def),
    get_dashboard p n = Ok d -> In d (p_dashboards p) /\ lower (dd_name d) = n /\ permitted p (dd_grants d).
Proof. exact get_dashboard_sound. Qed.
Print Assumptions C01_dashboard_lookup.

Example C01_dashboard_case :
  get_dashboard (ex_proj (Some ex_user)) "sales" = Ok (DashDef "Sales" ["dept"; "geo"]).
Proof. reflexivity. Qed.

Lemma no_user_permits p r : p_user p = None -> permitted p r.
Proof. intros H u Hu. congruence. Qed.

Lemma no_user_can p r : p_user p = None -> can_access_object p r = Ok true.
Proof. intros H. apply can_access_object_true, no_user_permits, H. Qed.

Lemma no_user_views p : p_user p = None -> views p true = Ok (p_views p).
Proof.
  intros H. unfold views. rewrite filterM_total.
  - f_equal. apply filter_all. intros v _. unfold can_access_view. rewrite (no_user_can p _ H). reflexivity.
  - intros v _. unfold can_access_view. rewrite (no_user_can p _ H). simpl. eauto.
Qed.

Lemma no_user_view_fields p v e :
  p_user p = None -> view_fields p v true e = Ok (flat_map (fun fd => expand_field v fd e) (vd_fields v)).
Proof.
  intros H. unfold view_fields, view_all_fields.
  rewrite (concatM_eq _ (fun fd => expand_field v fd e)); [reflexivity|].
  intros fd _. unfold can_access_field, can_access_view. rewrite !(no_user_can p _ H). reflexivity.
Qed.

(** With no user set nothing is hidden and nothing raises. *)
Theorem C01_no_user_sees_everything :
  forall (p : project), p_user p = None ->
    views p true = Ok (p_views p) /\ dashboards p = Ok (p_dashboards p) /\
    forall e, fields p None true e =
              Ok (flat_map (fun v => flat_map (fun fd => expand_field v fd e) (vd_fields v)) (p_views p)).
Proof.
  intros p H. split; [exact (no_user_views p H)|]. split.
  - unfold dashboards. rewrite filterM_total.
    + f_equal. apply filter_all. intros d _. rewrite (no_user_can p _ H). reflexivity.
    + intros d _. rewrite (no_user_can p _ H). eauto.
  - intros e. simpl. rewrite (no_user_views p H). simpl. apply concatM_eq.
    intros v _. exact (no_user_view_fields p v e H).
Qed.
Print Assumptions C01_no_user_sees_everything.

Example C01_no_user_case : p_user (ex_proj None) = None /\ views (ex_proj None) true = Ok [ex_orders; ex_customers].
Proof. split; reflexivity. Qed.

(** ** C02 *)

(** Whatever a lookup or listing returns passes the grants of the field and of its view; the only
    other answer is the implicit count of a view the user may see. *)
Theorem C02_field_never_more_visible_than_view :
  forall (p : project) f,
    (forall vn sh e fs, fields p vn sh e = Ok fs -> In f fs -> visible_field p e f) /\
    (forall fn vn, get_field p fn vn = Ok f -> visible_field p true f \/ implicit_count p f) /\
    (forall fn vn, get_field_by_name p fn vn = Ok f -> visible_field p false f \/ implicit_count p f) /\
    (forall jg t vn jgs, get_field_by_tag jg p t vn jgs = Ok f -> visible_field p true f \/ implicit_count p f).
Proof.
  intros p f. split; [|split; [|split]].
  - intros vn sh e fs H Hf. exact (proj1 (fields_sound _ _ _ _ _ _ H Hf)).
  - intros fn vn. exact (get_field_sound p fn vn f).
  - intros fn vn. exact (get_field_by_name_sound p fn vn f).
  - intros jg t vn jgs. exact (get_field_by_tag_sound jg p t vn jgs f).
Qed.
Print Assumptions C02_field_never_more_visible_than_view.

Example C02_case :
  exists f, get_field (ex_proj (Some ex_user)) "ORDERS.total_revenue" None = Err AccessDenied /\
            get_field (ex_proj (Some ex_user)) "orders.TOTAL_revenue" None = Ok f /\
            field_id f = "orders.total_revenue".
Proof. eexists. repeat split. Qed.

(** Finding: a field the project itself calls "count" and denies to the user is answered by the
    synthetic unrestricted count of the same view instead of being refused. *)
Theorem C02_denied_count_is_replaced_by_the_implicit_count :
  exists p v fd f,
    In v (p_views p) /\ In fd (vd_fields v) /\ lower (fd_name fd) = "count" /\ ~ permitted p (fd_grants fd) /\
    get_field p "v.count" None = Ok f /\ fd_grants (fo_def f) = [].
Proof.
  exists (Project [Grant "g" "a" ["x"]]
                  [ViewDef "v" false [] [FieldDef "count" Measure "sum" [] [] false ["g"] false []] []] []
                  (Some [("a", Some "y")])).
  eexists _, _, _. split; [left; reflexivity|]. split; [left; reflexivity|]. split; [reflexivity|].
  split; [|split; reflexivity].
  intros H. apply can_access_object_true in H. discriminate.
Qed.
Print Assumptions C02_denied_count_is_replaced_by_the_implicit_count.

(** ** C03 *)

(** A plain name (optionally with a separate view) resolves to [f] iff [f] is the only listed field
    addressed by it (counting repetitions), or nothing is and it is the implicit count of a named view. *)
Theorem C03_lookup_returns_the_only_match :
  forall (p : project) (n : string) (vn : option string), has_char dot n = false ->
  forall f, get_field p n vn = Ok f <->
    exists fs, fields p vn true true = Ok fs /\
    ((exists l1 l2, fs = l1 ++ f :: l2 /\ addressed_as f (lower n) /\
        forall g, In g (l1 ++ l2) -> ~ addressed_as g (lower n)) \/
     ((forall g, In g fs -> ~ addressed_as g (lower n)) /\ lower n = "count" /\
      exists v vd, vn = Some v /\ v <> "" /\ get_view p v = Ok vd /\
                   f = FieldObj (vd_name vd) count_def None false)).
Proof. exact get_field_ok_iff. Qed.
Print Assumptions C03_lookup_returns_the_only_match.

(** Two listed fields with that name always raise QueryError, and nothing else does once the listing succeeds. *)
Theorem C03_ambiguity_is_an_error :
  forall (p : project) (n : string) (vn : option string), has_char dot n = false ->
  forall fs, fields p vn true true = Ok fs ->
    (get_field p n vn = Err QueryError <->
     exists l1 f l2 g l3, fs = l1 ++ f :: l2 ++ g :: l3 /\
       addressed_as f (lower n) /\ addressed_as g (lower n)).
Proof. exact get_field_ambiguous. Qed.
Print Assumptions C03_ambiguity_is_an_error.

Example C03_ambiguous_case :
  get_field (ex_proj (Some ex_user)) "Ordered_DATE" None = Err QueryError /\
  is_ok (get_field (ex_proj (Some ex_user)) "Ordered_DATE" (Some "orders")) = true.
Proof. split; reflexivity. Qed.

(** No listed field with that name raises AccessDeniedOrDoesNotExist. *)
Theorem C03_missing_is_an_error :
  forall (p : project) (n : string) (vn : option string), has_char dot n = false ->
  forall fs, fields p vn true true = Ok fs ->
    (get_field p n vn = Err AccessDenied <->
     (forall g, In g fs -> ~ addressed_as g (lower n)) /\
     ~ (lower n = "count" /\ exists v, vn = Some v /\ v <> "")).
Proof. exact get_field_missing. Qed.
Print Assumptions C03_missing_is_an_error.

(** "view.name" and name with a view argument are the same request; case is irrelevant. *)
Theorem C03_qualified_and_case_insensitive :
  forall (p : project),
    (forall v n, has_char dot v = false -> has_char dot n = false ->
       get_field p (v ++ String dot n) None = get_field p n (Some v)) /\
    (forall n m vn, has_char dot n = false -> lower n = lower m -> get_field p n vn = get_field p m vn).
Proof. intros p; split; [exact (get_field_qualified p)|exact (get_field_case p)]. Qed.
Print Assumptions C03_qualified_and_case_insensitive.

(** The answer does not depend on the order in which views are declared. *)
Theorem C03_independent_of_view_order :
  forall (p : project) (vs' : list view_def),
    Permutation (p_views p) vs' -> NoDup (map vd_name (p_views p)) ->
    forall fn vn, get_field p fn vn = get_field (same_but_views p vs') fn vn.
Proof. intros p vs' HP HN fn vn. exact (get_field_order p vs' HP HN fn vn). Qed.
Print Assumptions C03_independent_of_view_order.

Example C03_order_case :
  Permutation (p_views (ex_proj None)) [ex_customers; ex_orders] /\ NoDup (map vd_name (p_views (ex_proj None))).
Proof. split; [apply perm_swap|]. repeat constructor; simpl; intuition discriminate. Qed.

(** ** C04 *)

(** For the views the requested fields mention ([vs], in any enumeration order), every access filter
    whose attribute the user carries is resolved and contributes all its conditions; conversely every
    access condition comes from such a filter. *)
Theorem C04_access_filters_of_mentioned_views_partial :
  forall (C : Type) (refs : field_obj -> list string) (cond : field_obj -> string -> res (list C))
         (p : project) (lookup : list field_obj) (vs : list string) cs fs,
    Permutation vs (unique_views refs lookup) ->
    get_access_filter C cond p vs = Ok (cs, fs) ->
    (forall q vn v fld attr u w,
       In q lookup -> vn = fo_view q \/ In vn (refs q) ->
       get_view p vn = Ok v -> In (fld, attr) (vd_access_filters v) ->
       p_user p = Some u -> carries u attr w -> w <> "" ->
       exists f cl, get_field p fld None = Ok f /\ cond f w = Ok cl /\ incl cl cs /\ (cl <> [] -> In f fs)) /\
    (forall c, In c cs ->
       exists q vn v fld attr u w f cl,
         In q lookup /\ (vn = fo_view q \/ In vn (refs q)) /\ get_view p vn = Ok v /\
         In (fld, attr) (vd_access_filters v) /\ p_user p = Some u /\ carries u attr w /\ w <> "" /\
         get_field p fld None = Ok f /\ cond f w = Ok cl /\ In c cl).
Proof.
  intros C refs cond p lookup vs cs fs HP H.
  assert (Hvs : forall x, In x vs <-> exists f, In f lookup /\ (x = fo_view f \/ In x (refs f))).
  { intros x. rewrite <- (unique_views_spec refs lookup x).
    split; apply Permutation_in; [exact HP|symmetry; exact HP]. }
  split.
  - intros q vn v fld attr u w Hq Hvn Hv Ha Hu Hc Hw.
    eapply access_filter_resolved; try eassumption. apply Hvs. eauto.
  - intros c Hc. apply (access_conditions _ _ _ _ _ _ H) in Hc.
    destruct Hc as (vn & v & fld & attr & w & f & cl & H1 & H2 & H3 & H4 & (u & H5 & H5') & H6 & H7 & H8).
    apply Hvs in H1. destruct H1 as (q & Hq & Hvn). exists q, vn, v, fld, attr, u, w, f, cl. auto 15.
Qed.
Print Assumptions C04_access_filters_of_mentioned_views_partial.

(** All conditions are ANDed with each other and with the user's own filters. *)
Theorem C04_conditions_are_conjoined :
  forall (C R : Type) (holds : R -> C -> bool) (r : R) (access user_where : list C),
    where_holds C holds r (where_filters C access user_where) = true <->
    forall c, In c access \/ In c user_where -> holds r c = true.
Proof. exact (fun C R holds r a w => where_holds_spec C holds r a w). Qed.
Print Assumptions C04_conditions_are_conjoined.

(** No user, no condition. *)
Theorem C04_no_user_no_condition :
  forall (C : Type) (cond : field_obj -> string -> res (list C)) (p : project) vs cs fs,
    p_user p = None -> get_access_filter C cond p vs = Ok (cs, fs) -> cs = [] /\ fs = [].
Proof.
  intros C cond p vs cs fs Hu H. assert (Hc : cs = []).
  { destruct cs as [|c r]; [reflexivity|]. exfalso.
    destruct (proj1 (access_conditions _ _ _ _ _ _ H c) (or_introl eq_refl))
      as (vn & v & fld & attr & w & f & cl & _ & _ & _ & _ & (u & Hu' & _) & _). congruence. }
  subst cs. split; [reflexivity|]. unfold get_access_filter in H. apply bind_ok in H.
  destruct H as (rs & _ & H). destruct (flat_map snd rs); [injection H as <-; reflexivity|discriminate].
Qed.
Print Assumptions C04_no_user_no_condition.

Definition ex_cond (f : field_obj) (v : string) : res (list string) := Ok [(field_id f ++ "=" ++ v)%string].

Example C04_case :
  exists q fs, get_field (ex_proj (Some ex_user)) "orders.total_revenue" None = Ok q /\
    unique_views (fun _ => []) [q] = ["orders"] /\
    get_access_filter string ex_cond (ex_proj (Some ex_user)) ["orders"] = Ok (["customers.region=us"], fs).
Proof. eexists _, _. repeat split. Qed.

(** Finding (the full C04 is false): the query below reads the view "customers" (it is a required
    view, because the access filter of "orders" is written on one of its fields) but the access
    filter of "customers" itself, whose attribute the user carries, contributes no condition. *)
Theorem C04_filters_of_every_view_read_refuted :
  exists p q vs cs v fld attr w f,
    design_required_views string (fun _ => []) ex_cond p [q] = Ok vs /\
    In "customers" vs /\ get_view p "customers" = Ok v /\ In (fld, attr) (vd_access_filters v) /\
    (exists u, p_user p = Some u /\ carries u attr w) /\ w <> "" /\
    get_access_filter string ex_cond p (unique_views (fun _ => []) [q]) = Ok (cs, [f]) /\
    get_field p fld None = Ok f /\ ~ In (field_id f ++ "=" ++ w)%string cs.
Proof.
  exists (ex_proj (Some ex_user)).
  exists (FieldObj "orders" ex_rev None false). eexists _, _, _, "customers.region", "owner", "ann", _.
  split; [reflexivity|]. split; [right; left; reflexivity|]. split; [reflexivity|].
  split; [left; reflexivity|]. split.
  - exists ex_user. split; [reflexivity|]. exists [("department", Some "finance"); ("region", Some "us")], [].
    split; [reflexivity|]. simpl. intuition discriminate.
  - split; [discriminate|]. split; [reflexivity|]. split; [reflexivity|]. simpl. intuition discriminate.
Qed.
Print Assumptions C04_filters_of_every_view_read_refuted.
