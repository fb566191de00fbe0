(** C08. *)
From Verif Require Import PyBase PyStr JoinAs_Model JoinAs_Spec JoinAs_Proofs.
Local Open Scope string_scope.
Local Open Scope list_scope.

(** C08: loading fails exactly when two views with different names request the same copy name, and
    then always with QueryError. *)
Theorem C08_fails_iff_two_views_share_a_copy_name vs e :
  handle_join_as vs = Err e <->
  e = QueryError /\
  ~ (forall v i w j n, In v vs -> In w vs -> requests v i n -> requests w j n -> jv_name v = jv_name w).
Proof. apply handle_join_as_err. Qed.
Print Assumptions C08_fails_iff_two_views_share_a_copy_name.

(** C08: on success the result is the original views, in order, each without its requesting
    identifiers, followed by the copies: one per requested name, each made for the first request of that
    name. *)
Theorem C08_originals_then_copies vs r :
  handle_join_as vs = Ok r ->
  exists originals copies,
    r = originals ++ copies /\
    Forall2 stripped vs originals /\
    NoDup (map jv_name copies) /\
    (forall n, In n (map jv_name copies) <-> exists v i, In v vs /\ requests v i n) /\
    (forall c, In c copies ->
       exists v i pre post, In v vs /\ requests v i (jv_name c) /\ is_copy (jv_name c) v i c /\
         all_requests vs = pre ++ (jv_name c, (v, i)) :: post /\ ~ In (jv_name c) (map fst pre)).
Proof.
  intros H. apply handle_join_as_ok in H. destruct H as [C ->].
  eexists; eexists. split; [reflexivity|].
  assert (Hn : map jv_name (map (fun q => copy_of (fst q) (fst (snd q)) (snd (snd q))) (dedup_by fst (all_requests vs)))
               = map fst (dedup_by fst (all_requests vs))).
  { rewrite map_map. apply map_ext. reflexivity. }
  split; [|split; [|split]].
  - clear. induction vs as [|v vs IH]; simpl; constructor; [apply strip_stripped|exact IH].
  - rewrite Hn. apply dedup_by_aux_NoDup.
  - intros n. rewrite Hn. split.
    + intros H. apply in_map_iff in H. destruct H as ([n' [v i]] & He & H). simpl in He. subst n'.
      apply dedup_by_aux_In in H. destruct H as [H _]. apply all_requests_In in H. exists v, i. exact H.
    + intros (v & i & Hv). apply all_requests_In in Hv.
      apply (dedup_by_aux_keys fst [] (all_requests vs)). split; [|intros []].
      apply (in_map fst) in Hv. exact Hv.
  - intros c Hc. apply in_map_iff in Hc. destruct Hc as ([n [v i]] & <- & H). simpl.
    pose proof (dedup_by_aux_In _ _ _ _ H) as [Hin _]. apply all_requests_In in Hin. destruct Hin as [Hv Hr].
    destruct (dedup_by_aux_first _ _ _ _ H) as (pre & post & He & Hp & _).
    exists v, i, pre, post. split; [exact Hv|]. split; [exact Hr|]. split; [apply copy_of_is_copy|].
    split; [exact He|exact Hp].
Qed.
Print Assumptions C08_originals_then_copies.

(** C08: a view without join_as requests is unchanged; a project without any is returned as it is. *)
Theorem C08_no_request_no_change vs :
  (forall v i n, In v vs -> ~ requests v i n) -> handle_join_as vs = Ok vs.
Proof.
  intros H. apply handle_join_as_ok. split.
  - intros v i w j n Hv _ Hr. destruct (H _ _ _ Hv Hr).
  - assert (E : all_requests vs = []).
    { destruct (all_requests vs) as [|[n [v i]] l] eqn:E; [reflexivity|].
      assert (K : In (n, (v, i)) (all_requests vs)) by (rewrite E; left; reflexivity).
      apply all_requests_In in K. destruct K as [K1 K2]. destruct (H _ _ _ K1 K2). }
    rewrite E. simpl. rewrite app_nil_r. clear E. induction vs as [|v vs IH]; simpl; [reflexivity|].
    rewrite <- IH; [|intros; apply H; right; assumption]. f_equal.
    unfold strip. replace (req_names v (jv_identifiers v)) with (@nil string).
    + unfold drop_names. rewrite filter_all; [destruct v; reflexivity|reflexivity].
    + unfold req_names. symmetry.
      replace (filter is_request (jv_identifiers v)) with (@nil ident); [reflexivity|]. symmetry.
      apply filter_nil. intros i Hi. unfold is_request.
      destruct (i_join_as i) as [n|] eqn:Ej; [|reflexivity].
      destruct (String.eqb (i_type i) "primary") eqn:Et; [|reflexivity].
      apply String.eqb_eq in Et. exfalso. apply (H v i n); [left; reflexivity|]. split; auto.
Qed.
Print Assumptions C08_no_request_no_change.

(** C08, which field prefix a copy gets: the given prefix, else the given label, else the copy name with
    underscores as blanks in title case. *)
Theorem C08_field_prefix vs r c :
  handle_join_as vs = Ok r -> In c r -> (forall v, In v vs -> jv_name v <> jv_name c) ->
  exists v i, In v vs /\ requests v i (jv_name c) /\
    (i_prefix i = None -> i_label i = None -> jv_field_prefix c = Some (title (replace "_" " " (jv_name c)))) /\
    (forall l, i_prefix i = None -> i_label i = Some l -> jv_field_prefix c = Some l).
Proof.
  intros H Hc Hne. apply handle_join_as_ok in H. destruct H as [_ ->]. apply in_app_or in Hc.
  destruct Hc as [Hc|Hc].
  - apply in_map_iff in Hc. destruct Hc as (v & <- & Hv). destruct (Hne v Hv). reflexivity.
  - apply in_map_iff in Hc. destruct Hc as ([n [v i]] & <- & Hq). apply dedup_by_aux_In in Hq.
    destruct Hq as [Hq _]. apply all_requests_In in Hq. destruct Hq as [Hv Hr]. exists v, i. simpl.
    split; [exact Hv|]. split; [exact Hr|]. split.
    + intros -> ->. reflexivity.
    + intros l -> ->. reflexivity.
Qed.
Print Assumptions C08_field_prefix.

(** Title case: a letter that follows no letter becomes a capital, any other letter small, and nothing else changes *)
Definition capitals : string := "ABCDEFGHIJKLMNOPQRSTUVWXYZ".
Definition smalls : string := "abcdefghijklmnopqrstuvwxyz".
Definition letter (c : ascii) : bool := has_char c capitals || has_char c smalls.
(** [d] stands in [to] where [c] stands in [from], and is [c] when it stands nowhere there *)
Fixpoint moved (from to : string) (c : ascii) : ascii :=
  match from, to with String a from, String b to => if Ascii.eqb a c then b else moved from to c | _, _ => c end.
Inductive titled : bool -> string -> string -> Prop :=
| titled_end b : titled b "" ""
| titled_first c s t : titled (letter c) s t -> titled false (String c s) (String (moved smalls capitals c) t)
| titled_later c s t : titled (letter c) s t -> titled true (String c s) (String (moved capitals smalls c) t).
Theorem C08_title s : titled false s (title s).
Proof.
  assert (U : forall c, upper_ascii c = moved smalls capitals c) by (intros [[] [] [] [] [] [] [] []]; reflexivity).
  assert (L : forall c, lower_ascii c = moved capitals smalls c) by (intros [[] [] [] [] [] [] [] []]; reflexivity).
  assert (K : forall c, is_letter c = letter c) by (intros [[] [] [] [] [] [] [] []]; reflexivity).
  unfold title. generalize false. induction s as [|c s IH]; intros b; cbn [title_aux]; [constructor|].
  rewrite K. destruct b; [rewrite L | rewrite U]; constructor; apply IH.
Qed.
Print Assumptions C08_title.
Example C08_title_case : title "parent account2b" = "Parent Account2B".
Proof. reflexivity. Qed.

(** Finding: the copies may carry the name of an existing view; loading does not object (the join graph
    does, later: C09). *)
Theorem C08_copy_name_may_clash_with_a_view_refuted :
  exists vs r, handle_join_as vs = Ok r /\ NoDup (map jv_name vs) /\ ~ NoDup (map jv_name r).
Proof.
  set (i := Ident "id" "primary" (Some "customers") None None false "").
  set (a := JView "accounts" [i] [] None None "").
  set (b := JView "customers" [] [] None None "").
  exists [a; b]. eexists. split; [reflexivity|]. split.
  - repeat constructor; simpl; intuition discriminate.
  - intros H. inversion H as [|x l _ H1]; subst. inversion H1 as [|x l H2 _]; subst. apply H2. left. reflexivity.
Qed.
Print Assumptions C08_copy_name_may_clash_with_a_view_refuted.

(** A non trivial instance: two requests on one view, one foreign identifier that asks for nothing. *)
Definition ja_parent := Ident "parent_id" "primary" (Some "parent_account") None None false "".
Definition ja_child := Ident "child_id" "primary" (Some "child_account") (Some "Child") None true "".
Definition ja_fk := Ident "region_id" "foreign" None None None false "".
Definition ja_view := JView "accounts" [ja_parent; ja_fk; ja_child]
  [JField "name" "dimension"; JField "n" "measure"] None None "tbl".
Example ja_example :
  exists c1 c2, handle_join_as [ja_view] = Ok [strip ja_view; c1; c2] /\
    jv_name c1 = "parent_account" /\ jv_fields c1 = [JField "name" "dimension"] /\
    jv_field_prefix c1 = Some "Parent Account" /\
    jv_name c2 = "child_account" /\ List.length (jv_fields c2) = 2 /\
    jv_identifiers (strip ja_view) = [ja_fk].
Proof. eexists; eexists. split; [reflexivity|]. repeat split. Qed.
Example ja_example_error :
  handle_join_as [ja_view; JView "other" [Ident "x" "primary" (Some "child_account") None None false ""] [] None None ""]
  = Err QueryError.
Proof. reflexivity. Qed.
