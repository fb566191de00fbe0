(** Specification and property theorems: C46, the filters of a dashboard; C52, the errors of a dashboard. *)
From Coq Require Import List String Bool ZArith QArith.
From Verif Require Import PyBase PyStr PyList Filter_Model Dashboard_Model.
Import ListNotations.
Local Open Scope string_scope.
Local Open Scope list_scope.

Local Arguments found : simpl never.
Section Spec.
  Variable num : string -> res Q.
  Variable now : option string -> Z.
  Variable tz : option string.
  Variable model_week : string -> res (option string).
  Variable get_field : string -> res unit.

  (** the conditions a value stands for, with the weeks beginning on a day and today in the project's zone *)
  Definition conditions (week : option string) (v : fval) : res (list cond) := fst (filter_dict num (now tz) default_globals v week).
  (** what one filter contributes *)
  Inductive expands (week : option string) (r : rawf) : list pfilter -> Prop :=
  | ex_conditions f v cs : rw_field r = Some f -> rw_value r = Some v -> py_str v <> "" -> conditions week v = Ok cs ->
      expands week r (map (fun c => PFilter f v (Some c) week tz) cs)
  | ex_empty f v : rw_field r = Some f -> rw_value r = Some v -> py_str v = "" -> expands week r [PFilter f v None week tz].

  Lemma filter_dict_globals g g' v w : fst (filter_dict num (now tz) g v w) = fst (filter_dict num (now tz) g' v w).
  Proof.
    unfold filter_dict. destruct (String.eqb (py_str v) ""); [reflexivity|]. cbv zeta. unfold set_week_start_day. destruct (parse_date_condition (now tz) _ v); reflexivity.
  Qed.
  Lemma parse_one_expands g week r x : fst (parse_one num now tz g week r) = Ok x <-> expands week r x.
  Proof.
    unfold parse_one. split.
    - destruct (rw_field r) as [f|] eqn:F; [|discriminate]. destruct (rw_value r) as [v|] eqn:V; [|discriminate].
      destruct (filter_dict num (now tz) g v week) as [y g'] eqn:D. cbn [fst]. destruct y as [cs|e]; [|discriminate]. intros E. injection E as <-.
      destruct (String.eqb_spec (py_str v) "") as [E|E]; [now apply ex_empty|]. apply ex_conditions; auto. unfold conditions. rewrite (filter_dict_globals _ g), D. reflexivity.
    - intros [f v cs F V E C|f v F V E]; rewrite F, V.
      + unfold conditions in C. rewrite (filter_dict_globals _ g) in C. destruct (filter_dict num (now tz) g v week) as [y g']. cbn [fst] in *. rewrite C.
        destruct (String.eqb_spec (py_str v) ""); [contradiction|reflexivity].
      + unfold filter_dict. rewrite E. reflexivity.
  Qed.
  Lemma parse_all_spec week l : forall g x, parse_all num now tz g week l = Ok x <-> exists parts, Forall2 (expands week) l parts /\ x = List.concat parts.
  Proof.
    induction l as [|r l IH]; intros g x; cbn [parse_all].
    - split; [intros E; injection E as <-; exists []; auto|]. intros [ps [F ->]]. inversion F. reflexivity.
    - split.
      + destruct (parse_one num now tz g week r) as [[fs|e] g'] eqn:P; [|discriminate]. intros H. apply bind_ok in H. destruct H as [y [A B]]. injection B as <-.
        apply IH in A. destruct A as [ps [F ->]]. exists (fs :: ps). split; auto. constructor; auto. apply (parse_one_expands g). now rewrite P.
      + intros [ps [F ->]]. inversion F as [|r' p l' ps' E F' X Y]. subst. apply (parse_one_expands g) in E. destruct (parse_one num now tz g week r) as [y g']. cbn [fst] in E. rewrite E.
        assert (A : parse_all num now tz g' week l = Ok (List.concat ps')) by (apply IH; eauto). rewrite A. reflexivity.
  Qed.
  Lemma opt_eqb_eq a b : opt_eqb a b = true <-> a = b.
  Proof. destruct a, b; cbn; try (split; congruence). rewrite String.eqb_eq. split; congruence. Qed.
  Lemma single_spec l w : (exists x, In x l) -> (forall x, In x l -> x = w) -> single l = w.
  Proof.
    intros [x I] H. destruct l as [|y l]; [destruct I|]. cbn [single]. rewrite (H y (or_introl eq_refl)).
    assert (A : forallb (opt_eqb w) l = true) by (apply forallb_forall; intros z J; apply opt_eqb_eq; symmetry; apply H; now right). now rewrite A.
  Qed.
  Lemma single_mixed l x y : In x l -> In y l -> x <> y -> single l = None.
  Proof.
    intros I J N. destruct l as [|z l]; [reflexivity|]. cbn [single]. destruct (forallb (opt_eqb z) l) eqn:A; [|reflexivity]. rewrite forallb_forall in A.
    assert (B : forall u, In u (z :: l) -> u = z) by (intros u [K|K]; [congruence|]; apply A, opt_eqb_eq in K; congruence). apply B in I, J. congruence.
  Qed.

  (** The parsed filters of a dashboard: filter by filter, in order, each one's conditions, whatever week the process
      was left in. *)
  Theorem C46_filters_partial : forall g d x, dashboard_filters num now tz model_week g d = Ok x <->
    (forall e, In e (db_elements d) -> de_model e <> None) /\
    exists ws parts, Forall2 (fun e w => exists m, de_model e = Some m /\ model_week m = Ok w) (db_elements d) ws
      /\ Forall2 (expands (single ws)) (raw_filters (db_filters d)) parts /\ x = List.concat parts.
  Proof.
    intros g d x. unfold dashboard_filters, check_elements. split.
    - destruct (forallb _ (db_elements d)) eqn:C; [|discriminate]. cbn [bind]. intros H. apply bind_ok in H. destruct H as [ws [A B]]. split.
      + intros e I E. rewrite forallb_forall in C. specialize (C e I). now rewrite E in C.
      + apply mapM_ok in A. apply parse_all_spec in B. destruct B as [ps [F ->]]. exists ws, ps. split; auto.
        eapply Forall2_weaken; [|exact A]. intros e w E. unfold element_week in E. destruct (de_model e); [eauto|discriminate].
    - intros [N [ws [ps [A [F ->]]]]]. assert (C : forallb (fun e => match de_model e with Some _ => true | None => false end) (db_elements d) = true).
      { apply forallb_forall. intros e I. specialize (N e I). destruct (de_model e); [reflexivity|contradiction]. }
      rewrite C. cbn [bind]. assert (M : mapM (element_week model_week) (db_elements d) = Ok ws).
      { apply mapM_ok. eapply Forall2_weaken; [|exact A]. intros e w [m [E1 E2]]. unfold element_week. now rewrite E1. }
      rewrite M. cbn [bind]. apply parse_all_spec. eauto.
  Qed.
  (** The first day of the week is the one all elements share. *)
  Theorem C46_shared_week : forall g d x w, dashboard_filters num now tz model_week g d = Ok x -> db_elements d <> [] ->
    (forall e, In e (db_elements d) -> exists m, de_model e = Some m /\ model_week m = Ok w) ->
    exists parts, Forall2 (expands w) (raw_filters (db_filters d)) parts /\ x = List.concat parts.
  Proof.
    intros g d x w H NE S. apply C46_filters_partial in H. destruct H as [_ [ws [ps [A [F E]]]]]. exists ps. split; auto.
    replace w with (single ws); auto. destruct (db_elements d) as [|e es] eqn:D; [congruence|]. apply single_spec.
    - inversion A as [|? y ? ys ? ?]; subst. exists y. now left.
    - intros y I. destruct (Forall2_In_r _ _ _ A _ I) as [e' [J [m [E1 E2]]]]. destruct (S e' J) as [m' [E3 E4]]. congruence.
  Qed.
  (** When two elements differ, or there are none, weeks begin on Monday. *)
  Theorem C46_default_week : forall g d x, dashboard_filters num now tz model_week g d = Ok x ->
    db_elements d = [] \/ (exists e e' m m' w w', In e (db_elements d) /\ In e' (db_elements d) /\ de_model e = Some m /\ de_model e' = Some m' /\ model_week m = Ok w /\ model_week m' = Ok w' /\ w <> w') ->
    exists parts, Forall2 (expands None) (raw_filters (db_filters d)) parts /\ x = List.concat parts.
  Proof.
    intros g d x H C. apply C46_filters_partial in H. destruct H as [_ [ws [ps [A [F E]]]]]. exists ps. split; auto. replace (@None string) with (single ws); auto. destruct C as [C|C].
    - rewrite C in A. inversion A. reflexivity.
    - destruct C as [e [e' [m [m' [w [w' [I [I' [E1 [E2 [E3 [E4 N]]]]]]]]]]]].
      destruct (Forall2_In_l _ _ _ A _ I) as [y [J [k [K1 K2]]]]. destruct (Forall2_In_l _ _ _ A _ I') as [y' [J' [k' [K1' K2']]]].
      apply (single_mixed ws w w'); auto; congruence.
  Qed.
  Theorem C46_default_is_monday : forall v, conditions None v = conditions (Some "monday") v.
  Proof. intros v. reflexivity. Qed.
  (** The filters of an element use the week of its own model. *)
  Theorem C46_element_filters : forall g e x, element_filters num now tz model_week g e = Ok x <->
    exists m w parts, de_model e = Some m /\ model_week m = Ok w /\ Forall2 (expands w) (raw_filters (de_filters e)) parts /\ x = List.concat parts.
  Proof.
    intros g e x. unfold element_filters, element_week. split.
    - intros H. apply bind_ok in H. destruct H as [w [A B]]. destruct (de_model e) as [m|]; [|discriminate]. apply parse_all_spec in B. destruct B as [ps [F ->]]. exists m, w, ps. auto.
    - intros [m [w [ps [-> [E [F ->]]]]]]. rewrite E. cbn [bind]. apply parse_all_spec. eauto.
  Qed.
  (** A filter with an empty value is not left out: for every dashboard an entry without condition stays in the list. *)
  Theorem C46_empty_refuted : forall g d x r f v, dashboard_filters num now tz model_week g d = Ok x ->
    In r (raw_filters (db_filters d)) -> rw_field r = Some f -> rw_value r = Some v -> py_str v = "" ->
    exists p, In p x /\ pf_field p = f /\ pf_cond p = None.
  Proof.
    intros g d x r f v H I F V E. apply C46_filters_partial in H. destruct H as [_ [ws [ps [A [B ->]]]]]. destruct (Forall2_In_l _ _ _ B _ I) as [p [J X]].
    exists (PFilter f v None (single ws) tz). split; [|auto]. apply in_concat. exists p. split; auto. destruct X as [f' v' cs F' V' E' C|f' v' F' V' E']; [congruence|].
    assert (f' = f) as -> by congruence. assert (v' = v) as -> by congruence. now left.
  Qed.

  (** ** Errors *)
  Definition resolves (f : string) : Prop := get_field f = Ok tt.
  (** an element's metrics: the key "metric" before "metrics"; one name or a list of names *)
  Inductive has_metric (e : delement) : string -> Prop :=
  | hm_one v f : (de_metric e = Some v \/ de_metric e = None /\ de_metrics e = Some v) -> (v = MText f \/ exists l, v = MList l /\ In f l) -> has_metric e f.
  Inductive dash_problem (d : dashboard) : string -> Prop :=
  | dp_filter r f : In r (raw_filters (db_filters d)) -> rw_field r = Some f -> ~ resolves f ->
      dash_problem d ("Could not find field " ++ f ++ " referenced in a filter in dashboard " ++ db_name d)%string
  | dp_model e m : In e (db_elements d) -> de_model e = Some m -> model_week m = Err AccessDenied ->
      dash_problem d ("Could not find or you do not have access to model " ++ m ++ " in dashboard " ++ db_name d)%string
  | dp_metric e f : In e (db_elements d) -> has_metric e f -> ~ resolves f ->
      dash_problem d ("Could not find field " ++ f ++ " referenced in dashboard " ++ db_name d)%string
  | dp_slice e f : In e (db_elements d) -> In f (de_slice e) -> ~ resolves f ->
      dash_problem d ("Could not find field " ++ f ++ " referenced in dashboard " ++ db_name d)%string
  | dp_element_filter e r f : In e (db_elements d) -> In r (raw_filters (de_filters e)) -> rw_field r = Some f -> ~ resolves f ->
      dash_problem d ("Could not find field " ++ f ++ " referenced in a filter in dashboard " ++ db_name d)%string
  | dp_element_none e r : In e (db_elements d) -> In r (raw_filters (de_filters e)) -> rw_field r = None ->
      dash_problem d ("Could not find field None referenced in a filter in dashboard " ++ db_name d)%string.

  Definition null_metric (e : delement) : Prop := de_metric e = Some MNull \/ de_metric e = None /\ de_metrics e = Some MNull.
  Lemma element_metrics_In e ms : element_metrics e = Some ms -> forall f, In f ms <-> has_metric e f.
  Proof.
    unfold element_metrics. intros H f. split.
    - intros I. destruct (de_metric e) as [v|] eqn:M.
      + apply (hm_one e v); [now left|]. destruct v; [discriminate| |]; injection H as <-; [left; destruct I as [<-|[]]; reflexivity|right; eauto].
      + destruct (de_metrics e) as [v|] eqn:M2; [|injection H as <-; destruct I].
        apply (hm_one e v); [now right|]. destruct v; [discriminate| |]; injection H as <-; [left; destruct I as [<-|[]]; reflexivity|right; eauto].
    - intros [v f' K V]. assert (E : match v with MText s => Some [s] | MList l => Some l | MNull => None end = Some ms).
      { destruct K as [K|[K1 K2]]; [now rewrite K in H|now rewrite K1, K2 in H]. }
      destruct V as [->|[l [-> I]]]; injection E as <-; [now left|exact I].
  Qed.
  Lemma element_metrics_none e : element_metrics e = None <-> null_metric e.
  Proof.
    unfold element_metrics, null_metric. destruct (de_metric e) as [[]|], (de_metrics e) as [[]|]; split; intros H;
      try discriminate H; auto; destruct H as [H|[H1 H2]]; congruence.
  Qed.

  Lemma found_iff f : found get_field (Some f) = true <-> resolves f.
  Proof. unfold found, resolves. destruct (get_field f) as [[]|e]; split; congruence. Qed.
  Lemma missing_In (g : string -> string) l x : In x (flat_map (fun f => if found get_field (Some f) then [] else [g f]) l) <-> exists f, In f l /\ ~ resolves f /\ x = g f.
  Proof.
    rewrite in_flat_map. split.
    - intros [f [I H]]. exists f. destruct (found get_field (Some f)) eqn:E; [destruct H|]. destruct H as [<-|[]]. repeat split; auto. rewrite <- found_iff. congruence.
    - intros [f [I [N ->]]]. exists f. split; auto. rewrite <- found_iff in N. destruct (found get_field (Some f)); [congruence|]. now left.
  Qed.
  Lemma filter_errors_In n l es : filter_errors get_field n l = Ok es -> (forall x, In x es <-> exists r f, In r l /\ rw_field r = Some f /\ ~ resolves f /\ x = missing_filter f n).
  Proof.
    revert es. induction l as [|r l IH]; intros es H x; cbn [filter_errors] in H.
    - injection H as <-. split; [intros []|]. intros [r [f [[] _]]].
    - destruct (rw_field r) as [f|] eqn:F; [|discriminate]. apply bind_ok in H. destruct H as [rest [A B]]. injection B as <-. rewrite in_app_iff, (IH _ A x). split.
      + intros [H|[r' [f' [I [E [N ->]]]]]]; [|exists r', f'; repeat split; auto; now right].
        destruct (found get_field (Some f)) eqn:E; [destruct H|]. destruct H as [<-|[]]. exists r, f. repeat split; auto; [now left|]. rewrite <- found_iff. congruence.
      + intros [r' [f' [[->|I] [E [N ->]]]]]; [|right; exists r', f'; auto]. assert (f' = f) as -> by congruence. left.
        rewrite <- found_iff in N. destruct (found get_field (Some f)); [congruence|]. now left.
  Qed.
  (** Whenever the check ends, its messages are exactly the references that cannot be resolved. *)
  Theorem C52_exact_partial : forall d es, dashboard_errors model_week get_field d = Ok es -> forall x, In x es <-> dash_problem d x.
  Proof.
    intros d es H x. unfold dashboard_errors in H. apply bind_ok in H. destruct H as [fs [A H]]. apply bind_ok in H. destruct H as [u [_ H]]. apply bind_ok in H. destruct H as [xs [C H]]. injection H as <-.
    rewrite in_app_iff, (filter_errors_In _ _ _ A x).
    assert (EL : forall e, In e (db_elements d) -> exists l, element_errors model_week get_field (db_name d) e = Ok l).
    { intros e I. eapply concatM_ok_all; eauto. }
    split.
    - intros [[r [f [I [F [N ->]]]]]|I]; [now apply (dp_filter d r f)|]. apply (concatM_ok_In _ _ _ C) in I. destruct I as [e [l [I [L J]]]].
      unfold element_errors in L. apply bind_ok in L. destruct L as [me [M L]]. destruct (element_metrics e) as [ms|] eqn:EM; [|discriminate]. injection L as <-.
      rewrite !in_app_iff, !(missing_In (fun f => missing f (db_name d))), in_flat_map in J. destruct J as [J|[[f [K [N ->]]]|[[f [K [N ->]]]|[r [K J]]]]].
      + destruct (de_model e) as [m|] eqn:DM; [|discriminate]. destruct (model_week m) as [w|[]] eqn:W; try discriminate; injection M as <-; [destruct J|]. destruct J as [<-|[]].
        unfold missing_model, model_text. rewrite append_assoc. exact (dp_model d e m I DM W).
      + exact (dp_metric d e f I (proj1 (element_metrics_In e ms EM f) K) N).
      + exact (dp_slice d e f I K N).
      + destruct (rw_field r) as [f|] eqn:F.
        * destruct (found get_field (Some f)) eqn:FO; [destruct J|]. destruct J as [<-|[]]. apply (dp_element_filter d e r f I K F). rewrite <- found_iff. congruence.
        * destruct J as [<-|[]]. exact (dp_element_none d e r I K F).
    - intros P. assert (IN : forall e l, In e (db_elements d) -> element_errors model_week get_field (db_name d) e = Ok l -> In x l -> In x xs).
      { intros e l I L J. apply (concatM_ok_In _ _ _ C). eauto. }
      destruct P as [r f I F N|e m I M W|e f I J N|e f I J N|e r f I J F N|e r I J F].
      + left. exists r, f. auto.
      + right. destruct (EL e I) as [l L]. apply (IN e l I L). unfold element_errors in L. rewrite M, W in L. cbn [bind] in L. destruct (element_metrics e); [|discriminate]. injection L as <-.
        left. unfold missing_model, model_text. now rewrite append_assoc.
      + right. destruct (EL e I) as [l L]. apply (IN e l I L). unfold element_errors in L. apply bind_ok in L. destruct L as [me [_ L]]. destruct (element_metrics e) as [ms|] eqn:EM; [|discriminate]. injection L as <-.
        rewrite !in_app_iff, !(missing_In (fun f => missing f (db_name d))). right. left. exists f. split; [now apply (element_metrics_In e ms EM)|auto].
      + right. destruct (EL e I) as [l L]. apply (IN e l I L). unfold element_errors in L. apply bind_ok in L. destruct L as [me [_ L]]. destruct (element_metrics e); [|discriminate]. injection L as <-.
        rewrite !in_app_iff, !(missing_In (fun f => missing f (db_name d))). right. right. left. exists f. auto.
      + right. destruct (EL e I) as [l L]. apply (IN e l I L). unfold element_errors in L. apply bind_ok in L. destruct L as [me [_ L]]. destruct (element_metrics e); [|discriminate]. injection L as <-.
        rewrite !in_app_iff. right. right. right. apply in_flat_map. exists r. split; auto. rewrite F. rewrite <- found_iff in N. destruct (found get_field (Some f)); [congruence|]. now left.
      + right. destruct (EL e I) as [l L]. apply (IN e l I L). unfold element_errors in L. apply bind_ok in L. destruct L as [me [_ L]]. destruct (element_metrics e); [|discriminate]. injection L as <-.
        rewrite !in_app_iff. right. right. right. apply in_flat_map. exists r. split; auto. rewrite F. now left.
  Qed.
  (** It ends exactly when the required keys are there, models are only ever absent, and no metric is null. *)
  Theorem C52_ends_iff : forall d, (forall m x, model_week m = Err x -> x = AccessDenied) ->
    ((exists es, dashboard_errors model_week get_field d = Ok es) <->
     (forall r, In r (raw_filters (db_filters d)) -> rw_field r <> None) /\ (forall e, In e (db_elements d) -> de_model e <> None /\ ~ null_metric e)).
  Proof.
    intros d Q. unfold dashboard_errors, check_elements. split.
    - intros [es H]. apply bind_ok in H. destruct H as [fs [A H]]. apply bind_ok in H. destruct H as [u [B H]]. apply bind_ok in H. destruct H as [xs [C _]]. split.
      + revert fs A. clear. induction (raw_filters (db_filters d)) as [|r l IH]; intros fs A s I; [destruct I|]. cbn [filter_errors] in A. destruct (rw_field r) as [f|] eqn:F; [|discriminate].
        apply bind_ok in A. destruct A as [rest [A _]]. destruct I as [<-|I]; [congruence|eauto].
      + intros e I. destruct (concatM_ok_all _ _ _ C e I) as [l L]. unfold element_errors in L. destruct (de_model e); [|discriminate]. split; [discriminate|].
        apply bind_ok in L. destruct L as [me [_ L]]. rewrite <- element_metrics_none. destruct (element_metrics e); [discriminate|discriminate].
    - intros [F E]. assert (A : exists fs, filter_errors get_field (db_name d) (raw_filters (db_filters d)) = Ok fs).
      { revert F. clear. induction (raw_filters (db_filters d)) as [|r l IH]; intros F; cbn [filter_errors]; [eauto|]. destruct (rw_field r) as [f|] eqn:R; [|now destruct (F r (or_introl eq_refl))].
        destruct IH as [fs ->]; [intros s I; apply F; now right|]. cbn [bind]. eauto. }
      destruct A as [fs ->]. cbn [bind].
      assert (B : forallb (fun e => match de_model e with Some _ => true | None => false end) (db_elements d) = true).
      { apply forallb_forall. intros e I. destruct (E e I) as [N _]. destruct (de_model e); [reflexivity|contradiction]. }
      rewrite B. cbn [bind].
      assert (C : exists xs, concatM (element_errors model_week get_field (db_name d)) (db_elements d) = Ok xs).
      { revert E. clear - Q. induction (db_elements d) as [|e l IH]; intros E; cbn [concatM]; [eauto|].
        assert (X : exists y, element_errors model_week get_field (db_name d) e = Ok y).
        { destruct (E e (or_introl eq_refl)) as [N1 N2]. unfold element_errors. destruct (de_model e) as [m|]; [|contradiction]. rewrite <- element_metrics_none in N2. destruct (element_metrics e) as [ms|]; [|contradiction].
          destruct (model_week m) as [w|x] eqn:W; [cbn [bind]; eauto|]. rewrite (Q _ _ W). cbn [bind]. eauto. }
        destruct X as [y ->]. cbn [bind]. destruct IH as [ys ->]; [intros e' I; apply E; now right|]. cbn [bind]. eauto. }
      destruct C as [xs ->]. cbn [bind]. eauto.
  Qed.
  (** A filter without a field, or an element without a model, ends the check (and with it validate()) with an exception
      instead of a message. *)
  Theorem C52_no_field_refuted : forall d r l, raw_filters (db_filters d) = r :: l -> rw_field r = None -> dashboard_errors model_week get_field d = Err KeyError.
  Proof. intros d r l H N. unfold dashboard_errors. rewrite H. cbn [filter_errors]. rewrite N. reflexivity. Qed.
  Theorem C52_no_model_refuted : forall d e, db_filters d = None -> In e (db_elements d) -> de_model e = None -> dashboard_errors model_week get_field d = Err QueryError.
  Proof.
    intros d e H I N. unfold dashboard_errors, check_elements. rewrite H. cbn [raw_filters filter_errors bind].
    destruct (forallb _ (db_elements d)) eqn:B; [|reflexivity]. rewrite forallb_forall in B. specialize (B e I). now rewrite N in B.
  Qed.
End Spec.
Print Assumptions C46_filters_partial.
Print Assumptions C46_shared_week.
Print Assumptions C46_default_week.
Print Assumptions C46_default_is_monday.
Print Assumptions C46_element_filters.
Print Assumptions C46_empty_refuted.
Print Assumptions C52_exact_partial.
Print Assumptions C52_ends_iff.
Print Assumptions C52_no_field_refuted.
Print Assumptions C52_no_model_refuted.

Definition sample : dashboard :=
  Dashboard "sales" (Some [RawF (Some "orders.region") (Some (VStr "Europe")); RawF (Some "orders.state") (Some (VStr ""))])
    [DElement (Some "core") (Some (MText "total")) None ["orders.region"] None; DElement (Some "core") None (Some (MList ["total"; "lost"])) [] None].
Definition week_of (m : string) : res (option string) := if String.eqb m "core" then Ok (Some "sunday") else Err AccessDenied.
Example sample_filters : exists x, dashboard_filters (fun _ => Err ValueError) (fun _ => 0%Z) None week_of default_globals sample = Ok x
  /\ map (fun p => (pf_field p, pf_week p, match pf_cond p with Some _ => true | None => false end)) x
     = [("orders.region", Some "sunday", true); ("orders.state", Some "sunday", false)].
Proof. eexists. split; vm_compute; reflexivity. Qed.
Example sample_errors : dashboard_errors week_of (fun f => if String.eqb f "lost" then Err AccessDenied else Ok tt) sample
  = Ok ["Could not find field lost referenced in dashboard sales"].
Proof. reflexivity. Qed.

(** An element without a model cannot be built: its own checks and its filters say so, and so does every reading of the dashboard it is in. *)
Theorem C46_no_model num now tz model_week get_field g e : de_model e = None ->
  element_filters num now tz model_week g e = Err QueryError
  /\ (forall n, element_errors model_week get_field n e = Err QueryError)
  /\ forall d, In e (db_elements d) ->
       dashboard_filters num now tz model_week g d = Err QueryError
       /\ (forall es, filter_errors get_field (db_name d) (raw_filters (db_filters d)) = Ok es -> dashboard_errors model_week get_field d = Err QueryError).
Proof.
  intros N. split; [unfold element_filters, element_week; rewrite N; reflexivity|]. split; [intros n; unfold element_errors; rewrite N; reflexivity|].
  intros d I. assert (C : check_elements (db_elements d) = Err QueryError).
  { unfold check_elements. destruct (forallb _ (db_elements d)) eqn:B; [|reflexivity]. rewrite forallb_forall in B. specialize (B e I). cbn beta in B. rewrite N in B. discriminate. }
  split; [unfold dashboard_filters; rewrite C; reflexivity|]. intros es E. unfold dashboard_errors. rewrite E. cbn [bind]. rewrite C. reflexivity.
Qed.
Print Assumptions C46_no_model.
