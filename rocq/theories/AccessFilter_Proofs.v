From Verif Require Import PyBase PyStr Core_Model Access_Spec Access_Proofs AccessFilter_Model.
Local Open Scope string_scope.
Local Open Scope list_scope.

Section P.
  Variable C : Type.
  Variable cond : field_obj -> string -> res (list C).

  Lemma user_value_spec p a v :
    user_value p a = Some v <-> (exists u, p_user p = Some u /\ carries u a v) /\ v <> "".
  Proof.
    unfold user_value, carries. destruct (p_user p) as [u|].
    - destruct (assoc a u) as [[w|]|] eqn:E.
      + destruct (String.eqb w "") eqn:W.
        * apply String.eqb_eq in W. subst w. split; [discriminate|].
          intros [(u' & Hu & H) Hv]. injection Hu as <-. apply assoc_split in H. congruence.
        * apply String.eqb_neq in W. split.
          -- intros H; injection H as <-. split; [|exact W]. exists u. split; [reflexivity|].
             apply assoc_split; exact E.
          -- intros [(u' & Hu & H) Hv]. injection Hu as <-. apply assoc_split in H. congruence.
      + split; [discriminate|]. intros [(u' & Hu & H) Hv]. injection Hu as <-. apply assoc_split in H. congruence.
      + split; [discriminate|]. intros [(u' & Hu & H) Hv]. injection Hu as <-. apply assoc_split in H. congruence.
    - split; [discriminate|]. intros [(u & Hu & _) _]. discriminate.
  Qed.

  Lemma get_access_filter_pairs p vs cs fs :
    get_access_filter C cond p vs = Ok (cs, fs) ->
    exists rs,
      concatM (fun vn => v <- get_view p vn ;; concatM (one_access_filter C cond p) (vd_access_filters v)) vs = Ok rs /\
      cs = flat_map snd rs /\ (cs <> [] -> fs = map fst rs).
  Proof.
    unfold get_access_filter. intros H. apply bind_ok in H. destruct H as (rs & Hrs & H).
    exists rs. split; [exact Hrs|]. destruct (flat_map snd rs) as [|c r] eqn:E.
    - injection H as <- <-. split; [reflexivity|]. congruence.
    - injection H as <- <-. split; [reflexivity|]. reflexivity.
  Qed.

  Lemma pairs_In p vs rs :
    concatM (fun vn => v <- get_view p vn ;; concatM (one_access_filter C cond p) (vd_access_filters v)) vs = Ok rs ->
    forall f cs, In (f, cs) rs <->
      exists vn v fld attr w, In vn vs /\ get_view p vn = Ok v /\ In (fld, attr) (vd_access_filters v) /\
        get_field p fld None = Ok f /\ user_value p attr = Some w /\ cond f w = Ok cs.
  Proof.
    intros H f cs. rewrite (concatM_ok_In _ _ _ H (f, cs)). split.
    - intros (vn & zs & Hvn & Hz & Hin). apply bind_ok in Hz. destruct Hz as (v & Hv & Hz).
      apply (concatM_ok_In _ _ _ Hz) in Hin. destruct Hin as ([fld attr] & ys & Ha & Hy & Hin).
      unfold one_access_filter in Hy. simpl in Hy. apply bind_ok in Hy. destruct Hy as (f' & Hf & Hy).
      destruct (user_value p attr) as [w|] eqn:U.
      + apply bind_ok in Hy. destruct Hy as (cs' & Hc & Hy). injection Hy as <-.
        destruct Hin as [E|[]]. injection E as -> ->. exists vn, v, fld, attr, w. auto 10.
      + injection Hy as <-. destruct Hin.
    - intros (vn & v & fld & attr & w & H1 & H2 & H3 & H4 & H5 & H6).
      destruct (concatM_ok_all _ _ _ H vn H1) as [zs Hz]. exists vn, zs. split; [exact H1|].
      split; [exact Hz|]. rewrite H2 in Hz. simpl in Hz.
      apply (concatM_ok_In _ _ _ Hz). exists (fld, attr), [(f, cs)]. split; [exact H3|].
      unfold one_access_filter. simpl. rewrite H4. simpl. rewrite H5, H6. simpl.
      split; [reflexivity|left; reflexivity].
  Qed.

  Lemma access_conditions p vs cs fs :
    get_access_filter C cond p vs = Ok (cs, fs) ->
    forall c, In c cs <->
      exists vn v fld attr w f cl, In vn vs /\ get_view p vn = Ok v /\ In (fld, attr) (vd_access_filters v) /\
        get_field p fld None = Ok f /\ (exists u, p_user p = Some u /\ carries u attr w) /\ w <> "" /\
        cond f w = Ok cl /\ In c cl.
  Proof.
    intros H c. destruct (get_access_filter_pairs _ _ _ _ H) as (rs & Hrs & -> & _).
    rewrite in_flat_map. split.
    - intros ([f cl] & Hin & Hc). apply (pairs_In _ _ _ Hrs) in Hin.
      destruct Hin as (vn & v & fld & attr & w & H1 & H2 & H3 & H4 & H5 & H6).
      apply user_value_spec in H5. destruct H5. exists vn, v, fld, attr, w, f, cl. auto 12.
    - intros (vn & v & fld & attr & w & f & cl & H1 & H2 & H3 & H4 & H5 & H6 & H7 & H8).
      exists (f, cl). split; [|exact H8]. apply (pairs_In _ _ _ Hrs).
      exists vn, v, fld, attr, w. repeat (split; [assumption|]). split; [|exact H7].
      apply user_value_spec. auto.
  Qed.

  (** Every applicable filter is resolved and used: nothing is silently skipped. *)
  Lemma access_filter_resolved p vs cs fs :
    get_access_filter C cond p vs = Ok (cs, fs) ->
    forall vn v fld attr u w,
      In vn vs -> get_view p vn = Ok v -> In (fld, attr) (vd_access_filters v) ->
      p_user p = Some u -> carries u attr w -> w <> "" ->
      exists f cl, get_field p fld None = Ok f /\ cond f w = Ok cl /\ incl cl cs /\ (cl <> [] -> In f fs).
  Proof.
    intros H vn v fld attr u w H1 H2 H3 H4 H5 H6.
    destruct (get_access_filter_pairs _ _ _ _ H) as (rs & Hrs & Hcs & Hfs).
    destruct (concatM_ok_all _ _ _ Hrs vn H1) as [zs Hz]. rewrite H2 in Hz. simpl in Hz.
    destruct (concatM_ok_all _ _ _ Hz (fld, attr) H3) as [ys Hy]. unfold one_access_filter in Hy.
    simpl in Hy. apply bind_ok in Hy. destruct Hy as (f & Hf & Hy).
    assert (U : user_value p attr = Some w) by (apply user_value_spec; eauto).
    rewrite U in Hy. apply bind_ok in Hy. destruct Hy as (cl & Hc & _).
    assert (Hin : In (f, cl) rs).
    { apply (pairs_In _ _ _ Hrs). exists vn, v, fld, attr, w. auto 10. }
    exists f, cl. split; [exact Hf|]. split; [exact Hc|]. split.
    - intros c Hc'. subst cs. apply in_flat_map. exists (f, cl). auto.
    - intros Hne. rewrite Hfs.
      + apply in_map_iff. exists (f, cl). auto.
      + intros E. destruct cl as [|c r]; [congruence|]. assert (Hx : In c cs).
        { subst cs. apply in_flat_map. exists (f, c :: r). split; [exact Hin|left; reflexivity]. }
        rewrite E in Hx. destruct Hx.
  Qed.

  Lemma where_holds_spec {R} (holds : R -> C -> bool) r access user_where :
    where_holds C holds r (where_filters C access user_where) = true <->
    forall c, In c access \/ In c user_where -> holds r c = true.
  Proof.
    unfold where_holds, where_filters. rewrite forallb_app, andb_true_iff.
    assert (H1 : forallb (item_holds C holds r) (match access with [] => [] | _ => [AccessLiteral C access] end) = true
                 <-> forall c, In c access -> holds r c = true).
    { destruct access as [|a l]; simpl; [split; [intros _ ? []|reflexivity]|].
      rewrite andb_true_r. change (holds r a && forallb (holds r) l) with (forallb (holds r) (a :: l)).
      apply forallb_forall. }
    assert (H2 : forallb (item_holds C holds r) (map (UserFilter C) user_where) = true
                 <-> forall c, In c user_where -> holds r c = true).
    { induction user_where as [|a l IH]; simpl; [split; [intros _ ? []|reflexivity]|].
      rewrite andb_true_iff, IH. split; [intros [Ha Hl] c [<-|Hc]; auto|intros H; split; auto]. }
    rewrite H1, H2. split.
    - intros [Ha Hb] c [Hc|Hc]; [apply Ha|apply Hb]; exact Hc.
    - intros H. split; intros c Hc; apply H; [left|right]; exact Hc.
  Qed.
End P.

(** The set of views mentioned by the fields of a lookup. *)
Lemma unique_views_spec (refs : field_obj -> list string) (lookup : list field_obj) x :
  In x (unique_views refs lookup) <-> exists f, In f lookup /\ (x = fo_view f \/ In x (refs f)).
Proof.
  unfold unique_views, dedup, dedup_by.
  assert (E := dedup_by_aux_keys (fun y => y) [] (flat_map (required_views_of refs) lookup) x).
  rewrite !map_id in E. rewrite E, in_flat_map. split.
  - intros [(f & Hf & [H|H]) _]; exists f; auto.
  - intros (f & Hf & [->|H]); split; try (intros []); exists f; split; auto; [left; reflexivity|right; exact H].
Qed.
