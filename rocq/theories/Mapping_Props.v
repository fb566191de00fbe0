(** Specification and property theorems: C30. *)
From Verif Require Import PyBase PyStr PySort PyReplace Core_Model Mapping_Model Mapping_Proofs.
Local Open Scope string_scope.
Local Open Scope list_scope.
Local Open Scope nat_scope.

(** The active graphs: those every plain field of the query has; the joinable ones are not merged results *)
Theorem C30_active_graphs l u : usable l = Ok u ->
  (forall g, In g u <-> forall e, In e l -> In g (snd e)) /\ (forall g, In g (joinable_of u) <-> (forall e, In e l -> In g (snd e)) /\ contains "merged_result" g = false).
Proof. intros E. pose proof (usable_spec l u E) as S. split; [exact S|]. intros g. rewrite joinable_In, S. reflexivity. Qed.
Print Assumptions C30_active_graphs.

Section C30.
  Variable R : Type.
  Variable has_group_by : R -> bool.
  Variable get_field : string -> res mfld.
  Variable get_mapped : string -> option mapping.
  Variable special : string -> bool.
  Variable n_measures : string -> res nat.
  Variable enum : list string -> list string.
  Variable idents : string -> list string.
  Notation cfields := (clause_fields has_group_by idents).
  Notation resolve := (resolve has_group_by get_field get_mapped special n_measures enum idents).

  (** The first field that can be joined, else the first that can be merged *)
  Theorem C30_choice m J U f : determine get_field m J U = Ok f ->
    exists pre x post, mp_fields m = pre ++ x :: post /\ get_field x = Ok f /\
      ((shares (fl_graphs f) J /\ forall y g, In y pre -> get_field y = Ok g -> ~ shares (fl_graphs g) J) \/
       (shares (fl_graphs f) U /\ (forall y g, In y (mp_fields m) -> get_field y = Ok g -> ~ shares (fl_graphs g) J) /\ forall y g, In y pre -> get_field y = Ok g -> ~ shares (fl_graphs g) U)).
  Proof.
    unfold determine. intros E. pose proof (det_looked_up _ _ _ _ _ _ _ E) as L. rewrite det_eq in E by exact L. cbn [app] in E.
    assert (G : forall x, List.length (gate get_field J x) <= 1) by (intros x; unfold gate; destruct (get_field x) as [g|]; [destruct (meets _ _)|]; simpl; lia).
    assert (G2 : forall x, List.length (gate2 get_field J U x) <= 1) by (intros x; unfold gate2; destruct (get_field x) as [g|]; [destruct (meets _ _); [|destruct (meets _ _)]|]; simpl; lia).
    assert (GN : forall y g, gate get_field J y = [] -> get_field y = Ok g -> ~ shares (fl_graphs g) J).
    { intros y g P Y. unfold gate in P. rewrite Y in P. apply meets_false. destruct (meets _ _); [discriminate | reflexivity]. }
    destruct (flat_map (gate get_field J) (mp_fields m)) as [|g r] eqn:A.
    - destruct (flat_map (gate2 get_field J U) (mp_fields m)) as [|g r] eqn:B; [discriminate|]. injection E as ->.
      assert (NJ : forall y h, In y (mp_fields m) -> get_field y = Ok h -> ~ shares (fl_graphs h) J).
      { intros y h I Y. eapply GN; [eapply gate_nil; eassumption | exact Y]. }
      destruct (gate_head _ _ _ _ B G2) as [pre [x [post [EQ [P PRE]]]]]. exists pre, x, post. split; [exact EQ|].
      unfold gate2 in P. destruct (get_field x) as [h|] eqn:X; [|discriminate]. destruct (meets (fl_graphs h) J); [discriminate|]. destruct (meets (fl_graphs h) U) eqn:MU; [|discriminate]. injection P as ->.
      split; [reflexivity|]. right. split; [apply meets_spec; exact MU|]. split; [exact NJ|]. intros y g I Y. specialize (PRE y I). unfold gate2 in PRE. rewrite Y in PRE.
      apply meets_false. destruct (meets (fl_graphs g) J) eqn:MJ; [exfalso; apply (NJ y g); [rewrite EQ; apply in_app_iff; left; exact I | exact Y | apply meets_spec; exact MJ]|]. destruct (meets (fl_graphs g) U); [discriminate | reflexivity].
    - injection E as ->. destruct (gate_head _ _ _ _ A G) as [pre [x [post [EQ [P PRE]]]]]. exists pre, x, post. split; [exact EQ|].
      unfold gate in P. destruct (get_field x) as [h|] eqn:X; [|discriminate]. destruct (meets (fl_graphs h) J) eqn:MJ; [|discriminate]. injection P as ->.
      split; [reflexivity|]. left. split; [apply meets_spec; exact MJ|]. intros y g I Y. eapply GN; [apply PRE; exact I | exact Y].
  Qed.
  (** No such field: QueryError *)
  Theorem C30_no_choice m J U : (forall x, In x (mp_fields m) -> exists f, get_field x = Ok f /\ ~ shares (fl_graphs f) J /\ ~ shares (fl_graphs f) U) ->
    determine get_field m J U = Err QueryError.
  Proof.
    intros H. unfold determine. rewrite det_eq by (intros x I; destruct (H x I) as [f [F _]]; eauto). cbn [app].
    replace (flat_map (gate get_field J) (mp_fields m)) with (@nil mfld); [replace (flat_map (gate2 get_field J U) (mp_fields m)) with (@nil mfld); [reflexivity|]|].
    - induction (mp_fields m) as [|x l IH]; [reflexivity|]. cbn [flat_map]. rewrite <- IH by (intros y I; apply H; right; exact I). destruct (H x (or_introl eq_refl)) as [f [F [NJ NU]]].
      unfold gate2. rewrite F. apply meets_false in NJ, NU. rewrite NJ, NU. reflexivity.
    - induction (mp_fields m) as [|x l IH]; [reflexivity|]. cbn [flat_map]. rewrite <- IH by (intros y I; apply H; right; exact I). destruct (H x (or_introl eq_refl)) as [f [F [NJ NU]]].
      unfold gate. rewrite F. apply meets_false in NJ. rewrite NJ. reflexivity.
  Qed.

  (** ** Whole queries *)
  (** Ids of fields are not mapped names *)
  Hypothesis ids_unmapped : forall x f, get_field x = Ok f -> get_mapped (fl_id f) = None.

  (** A field fits a mapping in a query with the names [all] *)
  Definition fits (all metrics : list string) (m : mapping) (f : mfld) : Prop :=
    ((special (mp_name m) = true /\ exists c, get_field (c ++ "_" ++ mp_name m)%string = Ok f) \/
     exists y, In y (mp_fields m) /\ get_field y = Ok f /\
       ((exists z, In z all /\ get_mapped z = None) ->
        exists g, In g (fl_graphs f) /\ forall z h, In z all -> get_mapped z = None -> get_field z = Ok h -> In g (fl_graphs h))) /\
    (forall m0 rest f0, special (mp_name m) = true -> metrics = m0 :: rest -> get_mapped m0 = None -> get_field m0 = Ok f0 ->
       get_field (canon_text (fl_canon f0) ++ "_" ++ mp_name m)%string = Ok f).

  Lemma sub_plain s x : (forall k g, In (k, g) s -> get_mapped k <> None) -> get_mapped x = None -> sub s x = x.
  Proof. intros H G. unfold sub. destruct (assoc x s) as [g|] eqn:A; [|reflexivity]. apply assoc_In in A. exfalso. exact (H x g A G). Qed.

  Theorem C30_resolved lookup_only q q' w h o :
    plain_clause R (q_where q) -> plain_clause R (q_having q) -> plain_clause R (q_order q) ->
    cfields (q_where q) = Ok w -> cfields (q_having q) = Ok h -> cfields (q_order q) = Ok o -> NoDup (q_metrics q) -> NoDup (q_dims q) ->
    resolve lookup_only q = Ok q' ->
    let all := q_metrics q ++ q_dims q ++ w ++ h ++ o in
    exists s : string -> string,
      q_metrics q' = map s (q_metrics q) /\ q_dims q' = map s (q_dims q) /\
      cfields (q_where q') = Ok (map s w) /\ cfields (q_having q') = Ok (map s h) /\ cfields (q_order q') = Ok (map s o) /\
      (forall x, get_mapped x = None -> s x = x) /\
      (forall x m, In x all -> get_mapped x = Some m -> exists f, s x = fl_id f /\ fits all (q_metrics q) m f) /\
      (forall x, In x all -> get_mapped (s x) = None).
  Proof.
    intros PW PH PO CW CH CO NM ND E all. unfold Mapping_Model.resolve in E. rewrite CW, CH, CO in E. cbn [bind] in E. fold all in E. cbn zeta in E.
    set (extra := filter (fun d => negb (mem d all)) lookup_only) in E. apply bind_ok in E. destruct E as [[ml objs] [LU E]].
    destruct (look_up_spec get_field get_mapped special n_measures enum idents _ _ _ _ _ LU) as [A1 [A2 [A3 [A4 _]]]]; [constructor | discriminate | discriminate |].
    assert (BT : forall x m b, In x all -> assoc x ml = Some (m, b) -> b = true).
    { intros x m b I A. destruct (A3 x m b A) as [_ [B|B]]; [discriminate|]. apply in_app_iff in B. destruct B as [B|B]; apply in_map_iff in B; destruct B as [y [B IY]]; injection B as <- <-; [reflexivity|].
      unfold extra in IY. apply filter_In in IY. destruct IY as [_ IY]. rewrite negb_true_iff, mem_false in IY. contradiction. }
    assert (A4' : forall n, In n all -> match get_mapped n with Some m => exists b', assoc n ml = Some (m, b') | None => exists f, get_field n = Ok f /\ assoc n objs = Some f end).
    { intros n I. apply (A4 true n). apply in_app_iff. left. apply in_map_iff. exists n. auto. }
    assert (GM : forall n m b, In (n, (m, b)) ml -> get_mapped n = Some m).
    { intros n m b I. assert (A : assoc n ml = Some (m, b)).
      { clear - A1 I. induction ml as [|[k v] ml IH]; [destruct I|]. cbn [assoc]. cbn [map fst] in A1. inversion A1; subst. destruct I as [I|I]; [injection I as -> ->; rewrite String.eqb_refl; reflexivity|].
        destruct (String.eqb_spec n k) as [->|]; [exfalso; apply H1; apply in_map_iff; exists (k, (m, b)); auto | apply IH; assumption]. }
      exact (proj1 (A3 n m b A)). }
    assert (IM0 : image R has_group_by idents q w h o [] q).
    { assert (ID : forall l, map (sub []) l = l) by (intros l; transitivity (map (fun x => x) l); [apply map_ext; reflexivity | apply map_id]). constructor; rewrite ID; auto. }
    (* it is enough to give the choices *)
    assert (FIN : forall s, image R has_group_by idents q w h o s q' -> (forall n f, In (n, f) s -> exists m, get_mapped n = Some m /\ fits all (q_metrics q) m f) ->
      (forall x m, In x all -> get_mapped x = Some m -> exists f, In (x, f) s) ->
      exists s : string -> string, q_metrics q' = map s (q_metrics q) /\ q_dims q' = map s (q_dims q) /\
        cfields (q_where q') = Ok (map s w) /\ cfields (q_having q') = Ok (map s h) /\ cfields (q_order q') = Ok (map s o) /\
        (forall x, get_mapped x = None -> s x = x) /\ (forall x m, In x all -> get_mapped x = Some m -> exists f, s x = fl_id f /\ fits all (q_metrics q) m f) /\ (forall x, In x all -> get_mapped (s x) = None)).
    { intros s [I1 I2 [_ I3] [_ I4] [_ I5]] FT DM. exists (sub s). split; [exact I1|]. split; [exact I2|]. split; [exact I3|]. split; [exact I4|]. split; [exact I5|].
      assert (P1 : forall x, get_mapped x = None -> sub s x = x) by (intros x; apply sub_plain; intros k g I; destruct (FT k g I) as [m [M _]]; congruence).
      assert (P2 : forall x m, In x all -> get_mapped x = Some m -> exists f, sub s x = fl_id f /\ fits all (q_metrics q) m f).
      { intros x m I G. destruct (DM x m I G) as [f0 F0]. unfold sub. destruct (assoc x s) as [f|] eqn:A.
        - apply assoc_In in A. destruct (FT x f A) as [m' [M FI]]. assert (m' = m) by congruence. subst m'. exists f. auto.
        - apply assoc_None in A. exfalso. apply A. apply in_map_iff. exists (x, f0). auto. }
      split; [exact P1|]. split; [exact P2|]. intros x I. destruct (get_mapped x) as [m|] eqn:G; [|rewrite P1 by exact G; exact G].
      destruct (P2 x m I G) as [f [-> FI]]. destruct FI as [[[_ [c C]]|[y [_ [Y _]]]] _]; eapply ids_unmapped; eassumption. }
    destruct ml as [|e0 ml0] eqn:EML.
    - injection E as <-. apply (FIN []); [exact IM0 | intros n f [] |]. intros x m I G. specialize (A4' x I). rewrite G in A4'. destruct A4' as [b' A']. discriminate.
    - rewrite <- EML in *. clear EML e0 ml0. destruct objs as [|o0 objs0] eqn:EOB.
      + (* only mapped names *)
        assert (NP : forall z, In z all -> get_mapped z <> None). { intros z I G. specialize (A4' z I). rewrite G in A4'. destruct A4' as [f [_ A']]. discriminate. }
        unfold only_mapped in E. apply bind_ok in E. destruct E as [c [CK E]]. apply bind_ok in E. destruct E as [[n f] [NF E]]. apply bind_ok in E. destruct E as [q1 [RM E]]. cbn [fst snd] in *.
        assert (IN0 : exists m b x, In (n, (m, b)) ml /\ In x (mp_fields m) /\ get_field x = Ok f).
        { assert (SINGLE : forall n0 m0 b0, ml = [(n0, (m0, b0))] -> match mp_fields m0 with [] => Err IndexError | x :: _ => f <- get_field x ;; Ok (n0, f) end = Ok (n, f) -> exists m b x, In (n, (m, b)) ml /\ In x (mp_fields m) /\ get_field x = Ok f).
          { intros n0 m0 b0 EM K. destruct (mp_fields m0) as [|x xs] eqn:MF; [discriminate|]. apply bind_ok in K. destruct K as [f' [F' K]]. injection K as <- <-. exists m0, b0, x. rewrite EM, MF. split; [left; reflexivity|]. split; [left; reflexivity | exact F']. }
          destruct (valid_items c) as [|i is] eqn:VI.
          - destruct ml as [|[n0 [m0 b0]] [|]]; try discriminate. eapply SINGLE; [reflexivity | exact NF].
          - destruct ml as [|[n0 [m0 b0]] [|e1 ml1]]; [discriminate | eapply SINGLE; [reflexivity | exact NF] |].
            destruct (isort item_geb (i :: is)) as [|[n1 [x1 p1]] t] eqn:IS; [discriminate|]. apply bind_ok in NF. destruct NF as [f' [F' NF]]. injection NF as <- <-.
            assert (IV : In (n1, (x1, p1)) (valid_items c)). { rewrite VI. apply (isort_In item_geb). rewrite IS. left. reflexivity. }
            destruct (valid_items_spec _ _ _ _ IV) as [fs [g [IC IX]]]. destruct (check_spec _ _ _ CK _ _ IC) as [m1 [b1 [IM1 MF]]]. exists m1, b1, x1. split; [exact IM1|]. split; [eapply MF; exact IX | exact F']. }
        destruct IN0 as [m [b [x [INM [IX FX]]]]]. pose proof (GM n m b INM) as GN.
        assert (FIT : forall m' f', (exists y, In y (mp_fields m') /\ get_field y = Ok f') -> fits all (q_metrics q) m' f').
        { intros m' f' [y [IY FY]]. split; [right; exists y; split; [exact IY|]; split; [exact FY|]; intros [z [IZ GZ]]; exfalso; exact (NP z IZ GZ)|].
          intros m0 rest f0 _ Q G0 _. exfalso. apply (NP m0); [unfold all; rewrite Q; left; reflexivity | exact G0]. }
        destruct (image_step R has_group_by idents q w h o all [] q n f q1 IM0 NM ND eq_refl (fun k g H => match H with end) RM) as [IM1 _].
        destruct (replace_rest_image R has_group_by get_field get_mapped idents ids_unmapped q w h o all [(n, fl_graphs f)] n NM ND ml [(n, f)] q1 q' E A1 GM IM1) as [s' [I1 [I2 [I3 _]]]].
        { intros k g [I|[]]. injection I as <- <-. split; [congruence | eapply ids_unmapped; exact FX]. }
        { intros k [I|[]]. left. symmetry. exact I. }
        { left. reflexivity. }
        apply (FIN _ I1).
        * intros k g I. apply in_app_iff in I. destruct I as [[I|[]]|I].
          -- injection I as <- <-. exists m. split; [exact GN|]. apply FIT. exists x. auto.
          -- destruct (I2 k g I) as [m' [b' [u [IK [_ DT]]]]]. exists m'. split; [eapply GM; exact IK|]. apply FIT. eapply determine_got. exact DT.
        * intros y m' I G. destruct (string_dec y n) as [->|N]; [exists f; left; reflexivity|]. specialize (A4' y I). rewrite G in A4'. destruct A4' as [b' A'].
          apply assoc_In in A'. destruct (I3 y m' b' A' N) as [g G']. exists g. right. exact G'.
      + rewrite <- EOB in *. assert (NE : objs <> []) by (rewrite EOB; discriminate). clear EOB o0 objs0.
        apply bind_ok in E. destruct E as [u [US E]]. apply bind_ok in E. destruct E as [[] [_ E]].
        destruct (replace_all_image R has_group_by get_field get_mapped special n_measures enum idents ids_unmapped q w h o all objs (joinable_of u) u NM ND) with (ml := ml) (s := @nil (string * mfld)) (q := q) (q' := q') as [s' [I1 [I2 I3]]].
        { intros m0 _ A. destruct (assoc m0 objs) as [f|] eqn:AO; [exact (proj2 (A2 m0 f AO)) | congruence]. }
        { exact E. } { exact A1. } { exact GM. } { exact IM0. } { intros k g []. } { intros k []. }
        apply (FIN _ I1).
        * intros k f I. destruct (I2 k f I) as [m [IK [CHO DATED]]]. exists m. split; [eapply GM; exact IK|]. split.
          -- destruct CHO as [C|D]; [left; exact C|]. right. destruct (C30_choice m (joinable_of u) u f D) as [pre [x [post [EQ [FX SH]]]]]. exists x. split; [rewrite EQ; apply in_app_iff; right; left; reflexivity|]. split; [exact FX|]. intros _.
             assert (SU : shares (fl_graphs f) u). { destruct SH as [[[g [G1 G2]] _]|[S _]]; [|exact S]. exists g. split; [exact G1|]. apply joinable_In in G2. tauto. }
             destruct SU as [g [G1 G2]]. exists g. split; [exact G1|]. intros z hz IZ GZ FZ. specialize (A4' z IZ). rewrite GZ in A4'. destruct A4' as [f2 [F2 A']]. assert (f2 = hz) by congruence. subst f2.
             apply assoc_In in A'. apply (proj1 (usable_spec _ _ US g) G2 (z, fl_graphs hz)). apply in_map_iff. exists (z, hz). auto.
          -- intros m0 rest f0 S Q G0 F0. apply (DATED m0 rest f0 S Q). assert (I0 : In m0 all) by (unfold all; rewrite Q; left; reflexivity).
             specialize (A4' m0 I0). rewrite G0 in A4'. destruct A4' as [f2 [F2 A']]. congruence.
        * intros x m I G. specialize (A4' x I). rewrite G in A4'. destruct A4' as [b' A']. pose proof (BT x m b' I A'). subst b'. apply assoc_In in A'. exact (I3 x m A').
  Qed.

  (** A date mapped over metrics with different canon dates makes the query a merged one, and nothing else does *)
  Theorem C30_forces_merge lookup_only q q' w h o :
    cfields (q_where q) = Ok w -> cfields (q_having q) = Ok h -> cfields (q_order q) = Ok o ->
    (forall x, In x (q_metrics q) -> get_mapped x = None) -> q_forced q = false -> resolve lookup_only q = Ok q' ->
    let all := q_metrics q ++ q_dims q ++ w ++ h ++ o in
    q_forced q' = true <->
      (exists x m, In x all /\ get_mapped x = Some m /\ special (mp_name m) = true) /\
      (exists x y f g, In x (q_metrics q) /\ In y (q_metrics q) /\ get_field x = Ok f /\ get_field y = Ok g /\ fl_canon f <> fl_canon g).
  Proof.
    intros CW CH CO PM F0 E all. unfold Mapping_Model.resolve in E. rewrite CW, CH, CO in E. cbn [bind] in E. fold all in E. cbn zeta in E.
    set (extra := filter (fun d => negb (mem d all)) lookup_only) in E. apply bind_ok in E. destruct E as [[ml objs] [LU E]].
    destruct (look_up_spec get_field get_mapped special n_measures enum idents _ _ _ _ _ LU) as [A1 [A2 [A3 [A4 _]]]]; [constructor | discriminate | discriminate |].
    assert (A4' : forall n, In n all -> match get_mapped n with Some m => exists b', assoc n ml = Some (m, b') | None => exists f, get_field n = Ok f /\ assoc n objs = Some f end).
    { intros n I. apply (A4 true n). apply in_app_iff. left. apply in_map_iff. exists n. auto. }
    assert (KEY : forall n v, In (n, v) ml -> assoc n ml = Some v).
    { clear - A1. intros n v I. induction ml as [|[k u] ml IH]; [destruct I|]. cbn [assoc]. cbn [map fst] in A1. inversion A1; subst. destruct I as [I|I]; [injection I as -> ->; rewrite String.eqb_refl; reflexivity|].
      destruct (String.eqb_spec n k) as [->|]; [exfalso; apply H1; apply in_map_iff; exists (k, v); auto | apply IH; assumption]. }
    assert (TR : forall n m, In (n, (m, true)) ml -> In n all /\ get_mapped n = Some m).
    { intros n m I. destruct (A3 n m true (KEY _ _ I)) as [G [B|B]]; [discriminate|]. split; [|exact G]. apply in_app_iff in B. destruct B as [B|B]; apply in_map_iff in B; destruct B as [y [B IY]]; [injection B as <-; exact IY | discriminate]. }
    assert (RT : forall n m, In n all -> get_mapped n = Some m -> In (n, (m, true)) ml).
    { intros n m I G. specialize (A4' n I). rewrite G in A4'. destruct A4' as [b A]. assert (b = true).
      { destruct (A3 n m b A) as [_ [B|B]]; [discriminate|]. apply in_app_iff in B. destruct B as [B|B]; apply in_map_iff in B; destruct B as [y [B IY]]; injection B as <- <-; [reflexivity|].
        unfold extra in IY. apply filter_In in IY. destruct IY as [_ IY]. rewrite negb_true_iff, mem_false in IY. contradiction. }
      subst b. apply assoc_In. exact A. }
    assert (MO : forall x, In x (q_metrics q) -> exists f, get_field x = Ok f /\ assoc x objs = Some f).
    { intros x I. assert (IA : In x all) by (unfold all; apply in_app_iff; left; exact I). specialize (A4' x IA). rewrite (PM x I) in A4'. exact A4'. }
    destruct ml as [|e0 ml0] eqn:EML.
    - injection E as <-. rewrite F0. split; [discriminate|]. intros [[x [m [I [G _]]]] _]. specialize (A4' x I). rewrite G in A4'. destruct A4' as [b A]. discriminate.
    - rewrite <- EML in *. clear EML e0 ml0. destruct objs as [|o0 objs0] eqn:EOB.
      + assert (Q0 : q_metrics q = []). { destruct (q_metrics q) as [|x l]; [reflexivity|]. destruct (MO x (or_introl eq_refl)) as [f [_ A]]. discriminate. }
        assert (F1 : q_forced q' = false).
        { unfold only_mapped in E. apply bind_ok in E. destruct E as [c [_ E]]. apply bind_ok in E. destruct E as [[n f] [_ E]]. apply bind_ok in E. destruct E as [q1 [RM E]].
          assert (RF : forall ns n f q q', replace_mapped ns n f q = Ok q' -> @q_forced R q' = q_forced q). { intros ns n' f' qa qb X. unfold replace_mapped in X. destruct (mem n' (n_all ns)); [|discriminate]. injection X as <-. reflexivity. }
          apply RF in RM. rewrite <- RM in F0. clear - F0 E RF. revert q1 F0 E. generalize ml at 1 as l. cbn [fst snd]. intros l. induction l as [|[k [m b]] l IH]; intros q1 F0 E; cbn [replace_rest] in E; [congruence|].
          destruct (String.eqb k n); [eapply IH; eassumption|]. apply bind_ok in E. destruct E as [u [_ E]]. apply bind_ok in E. destruct E as [t [_ E]]. apply bind_ok in E. destruct E as [f' [_ E]]. apply bind_ok in E. destruct E as [q2 [RM E]].
          apply RF in RM. apply (IH q2); [congruence | exact E]. }
        rewrite F1. split; [discriminate|]. intros [_ [x [y [f [g [I _]]]]]]. rewrite Q0 in I. destruct I.
      + rewrite <- EOB in *. clear EOB o0 objs0. apply bind_ok in E. destruct E as [u [US E]]. apply bind_ok in E. destruct E as [[] [_ E]].
        rewrite (replace_all_forced R get_field get_mapped special n_measures enum _ objs _ _ ml q q' E).
        2:{ intros x I. destruct (MO x I) as [f [_ A]]. split; [congruence | apply PM; exact I]. }
        2:{ intros n m b I. exact (proj1 (A3 n m b (KEY _ _ I))). }
        rewrite F0. split.
        * intros [H|[[n [m [I S]]] [m0 [rest [f0 [x [f [Q [A [IX [AX D]]]]]]]]]]]; [discriminate|]. destruct (TR n m I) as [IN G]. split; [exists n, m; auto|].
          exists x, m0, f, f0. rewrite Q. split; [right; exact IX|]. split; [left; reflexivity|]. split; [exact (proj1 (A2 x f AX))|]. split; [exact (proj1 (A2 m0 f0 A)) | exact D].
        * intros [[n [m [I [G S]]]] [x [y [f [g [IX [IY [FX [FY D]]]]]]]]]. right. split; [exists n, m; split; [apply RT; assumption | exact S]|].
          destruct (q_metrics q) as [|m0 rest] eqn:Q; [destruct IX|]. destruct (MO m0 (or_introl eq_refl)) as [f0 [FF0 A0]].
          destruct (MO x IX) as [f' [FX' AX]]. destruct (MO y IY) as [g' [FY' AY]]. assert (f' = f) by congruence. assert (g' = g) by congruence. subst f' g'.
          assert (DEC : fl_canon f <> fl_canon f0 \/ fl_canon g <> fl_canon f0).
          { assert (OD : forall a b : option string, {a = b} + {a <> b}) by (decide equality; apply string_dec). destruct (OD (fl_canon f) (fl_canon f0)) as [X|X]; [right; congruence | left; exact X]. }
          destruct DEC as [DEC|DEC].
          -- exists m0, rest, f0, x, f. split; [reflexivity|]. split; [exact A0|]. split; [destruct IX as [<-|IX]; [congruence | exact IX]|]. auto.
          -- exists m0, rest, f0, y, g. split; [reflexivity|]. split; [exact A0|]. split; [destruct IY as [<-|IY]; [congruence | exact IY]|]. auto.
  Qed.

  (** A date mapping in a query with no metrics and with dated dimensions: the canonical date, among those of the
      dimensions, whose view has most measures ([enum] lists a set). *)
  Theorem C30_most_measures o J U m (q : @query R) f b :
    (forall l x, In x (enum l) <-> In x l) ->
    special (mp_name m) = true -> q_metrics q = [] ->
    (exists d g c, In d (q_dims q) /\ assoc d o = Some g /\ fl_canon g = Some c /\ c <> "") ->
    replacement get_field special n_measures enum o J U m q = Ok (f, b) ->
    b = false /\ exists d g c, In d (q_dims q) /\ assoc d o = Some g /\ fl_canon g = Some c /\ c <> ""
      /\ get_field (c ++ "_" ++ mp_name m)%string = Ok f
      /\ forall d' g' c', In d' (q_dims q) -> assoc d' o = Some g' -> fl_canon g' = Some c' -> c' <> "" -> c' <> c ->
           exists n n', n_measures c = Ok n /\ n_measures c' = Ok n' /\ n' <= n.
  Proof.
    intros EN SP QM (d0 & g0 & c0 & H0) H. unfold replacement in H. rewrite SP, QM in H.
    assert (DC : forall c, In c (dim_canons enum o (q_dims q)) <-> exists d g, In d (q_dims q) /\ assoc d o = Some g /\ fl_canon g = Some c /\ c <> "").
    { intros c. unfold dim_canons. rewrite EN, in_flat_map. split.
      - intros (d & I & C). destruct (assoc d o) as [g|] eqn:A; [|destruct C]. exists d, g. split; [exact I|]. split; [exact A|].
        unfold truthy_canon in C. destruct (fl_canon g) as [[|a s]|]; simpl in C; [destruct C| |destruct C].
        destruct C as [<-|[]]. split; [reflexivity|discriminate].
      - intros (d & g & I & A & F & NE). exists d. split; [exact I|]. rewrite A. unfold truthy_canon. rewrite F.
        destruct c; [congruence|left; reflexivity]. }
    destruct (q_dims q) as [|d1 ds] eqn:QD; [destruct H0 as [[] _]|]. apply bind_ok in H. destruct H as (c & P & H).
    assert (IN0 : In c0 (dim_canons enum o (d1 :: ds))) by (apply DC; exists d0, g0; exact H0).
    destruct (dim_canons enum o (d1 :: ds)) as [|c1 cs] eqn:CS; [destruct IN0|].
    assert (PC : exists x, c = Some x /\ In x (c1 :: cs) /\ forall y, In y (c1 :: cs) -> y <> x -> exists n n', n_measures x = Ok n /\ n_measures y = Ok n' /\ n' <= n).
    { unfold pick_canon in P. destruct cs as [|c2 cs].
      - injection P as <-. exists c1. split; [reflexivity|]. split; [left; reflexivity|]. intros y [<-|[]] NE. congruence.
      - apply bind_ok in P. destruct P as (ws & W & P). apply mapM_ok in W.
        assert (WS : forall x n, In (x, n) ws -> In x (c1 :: c2 :: cs) /\ n_measures x = Ok n).
        { clear - W. induction W as [|a w l l' E W IH]; intros x n I; [destruct I|]. apply bind_ok in E. destruct E as (k & E1 & E2). injection E2 as <-.
          destruct I as [I|I]; [injection I as -> ->; split; [left; reflexivity|exact E1]|]. destruct (IH x n I). split; [right; assumption|assumption]. }
        assert (SW : forall x, In x (c1 :: c2 :: cs) -> exists n, In (x, n) ws).
        { clear - W. induction W as [|a w l l' E W IH]; intros x I; [destruct I|]. apply bind_ok in E. destruct E as (k & E1 & E2). injection E2 as <-.
          destruct I as [<-|I]; [exists k; left; reflexivity|]. destruct (IH x I) as [n J']. exists n. right. exact J'. }
        set (le := fun a b : string * nat => Nat.leb (snd b) (snd a)) in P.
        destruct (isort le ws) as [|[x n] r] eqn:S; [discriminate|]. injection P as <-. exists x. split; [reflexivity|].
        assert (IX : In (x, n) ws) by (apply (isort_In le); rewrite S; left; reflexivity).
        destruct (WS x n IX) as [IX1 IX2]. split; [exact IX1|]. intros y IY NE. destruct (SW y IY) as [n' JY]. exists n, n'.
        split; [exact IX2|]. split; [apply (WS y n' JY)|].
        assert (SO : sorted le (isort le ws)).
        { apply isort_sorted; unfold le; intros; [destruct (Nat.leb (snd y0) (snd x0)) eqn:Q; [left; reflexivity|right; apply Nat.leb_le; apply Nat.leb_gt in Q; lia]|].
          apply Nat.leb_le. repeat match goal with K : Nat.leb _ _ = true |- _ => apply Nat.leb_le in K end. lia. }
        rewrite S in SO. inversion SO as [|? ? Hd _]; subst.
        assert (JS : In (y, n') ((x, n) :: r)) by (rewrite <- S; apply isort_In; exact JY).
        destruct JS as [JS|JS]; [congruence|]. specialize (Hd _ JS). unfold le in Hd. simpl in Hd. apply Nat.leb_le in Hd. exact Hd. }
    destruct PC as (x & -> & IX & MX). apply bind_ok in H. destruct H as (r & G & H). injection H as <- <-. split; [reflexivity|].
    apply DC in IX. destruct IX as (d & g & I1 & I2 & I3 & I4). exists d, g, x. repeat (split; [assumption|]).
    intros d' g' c' A1 A2 A3 A4 A5. apply MX; [|exact A5]. apply DC. exists d', g'. auto.
  Qed.
End C30.
Print Assumptions C30_most_measures.
Print Assumptions C30_choice.
Print Assumptions C30_no_choice.
Print Assumptions C30_resolved.
Print Assumptions C30_forces_merge.

(** No graph common to the plain fields: QueryError, provided there are at least two of them *)
Theorem C30_no_common_graph l : NoDup (map fst l) -> 2 <= List.length l -> handle_invalid l [] = Err QueryError.
Proof.
  intros ND LE. cbn [handle_invalid].
  assert (K : forall k, exists u, usable (filter (fun e : string * list string => negb (String.eqb (fst e) k)) l) = Ok u).
  { intros k. destruct (filter (fun e : string * list string => negb (String.eqb (fst e) k)) l) as [|[a b] r] eqn:F; [|eexists; reflexivity]. exfalso.
    destruct l as [|[a x] [|[b y] l]]; cbn [List.length] in LE; try lia. cbn [filter fst] in F. inversion ND as [|? ? N _]; subst. cbn [map fst] in N.
    destruct (String.eqb_spec a k) as [->|]; cbn [negb] in F; [|discriminate F]. destruct (String.eqb_spec b k) as [->|]; cbn [negb] in F; [apply N; left; reflexivity | discriminate F]. }
  remember (fun e => usable (filter (fun x : string * list string => negb (String.eqb (fst x) e)) l)) as g eqn:G.
  assert (KG : forall k, exists u, g k = Ok u) by (subst g; exact K).
  transitivity ((fix go (ks : lookup) : res unit := match ks with [] => Err QueryError | (k, _) :: r => u <- g k ;; match u with [] => go r | _ => Err QueryError end end) l); [subst g; reflexivity|].
  clear - KG. induction l as [|[k x] l IH]; [reflexivity|]. destruct (KG k) as [u ->]. cbn [bind]. destruct u; [exact IH | reflexivity].
Qed.
Print Assumptions C30_no_common_graph.

(** ** Cases *)
Definition ex_fields : list (string * mfld) :=
  [("orders.total", MFld "orders.total" ["subquery_0"; "subquery_1"; "merged_result_orders.total"] (Some "orders.order"));
   ("orders.count", MFld "orders.count" ["subquery_0"] (Some "orders.shipped"));
   ("orders.region", MFld "orders.region" ["subquery_0"] (Some "orders.order"));
   ("my_region", MFld "orders.my_region" ["subquery_0"] None);
   ("sessions.region", MFld "sessions.region" ["merged_result_orders.total"] None);
   ("orders.order_date", MFld "orders.order_date" ["subquery_0"] None);
   ("a.x", MFld "a.x" ["subquery_0"] None); ("b.y", MFld "b.y" ["subquery_1"] None); ("b.z", MFld "b.z" ["subquery_0"] None);
   ("lonely.m", MFld "lonely.m" [] None)].
Definition ex_get (x : string) : res mfld := match assoc x ex_fields with Some f => Ok f | None => Err AccessDenied end.
Definition ex_mappings : list (string * mapping) :=
  [("region", Mapping "region" ["sessions.region"; "orders.region"]); ("date", Mapping "date" ["orders.order_date"]);
   ("a", Mapping "a" ["a.x"]); ("b", Mapping "b" ["b.y"; "b.z"])].
Definition ex_resolve (lo : list string) (q : query unit) : res (query unit) :=
  resolve (fun _ => false) ex_get (fun x => assoc x ex_mappings) (fun n => String.eqb n "date") (fun _ => Ok 0) (fun l => l) (fun _ => ["my_region"; "region"]) lo q.
Definition leaf (x : string) : robj unit := RDict (Some x) None tt.
Example C30_case :
  (forall x f, ex_get x = Ok f -> assoc (fl_id f) ex_mappings = None) /\
  ex_resolve [] (Query ["orders.total"; "orders.count"] ["region"; "date"] (CList [RDict None (Some [leaf "region"; leaf "orders.count"]) tt]) CNone CNone false) =
    Ok (Query ["orders.total"; "orders.count"] ["orders.region"; "orders.order_date"] (CList [RDict None (Some [leaf "orders.region"; leaf "orders.count"]) tt]) CNone CNone true).
Proof.
  split; [|vm_compute; reflexivity]. intros x f E. unfold ex_get in E. destruct (assoc x ex_fields) as [g|] eqn:A; [|discriminate]. injection E as <-.
  apply assoc_In in A. cbn in A. repeat (destruct A as [A|A]; [injection A as <- <-; reflexivity|]). destruct A.
Qed.
(** Only the first occurrence in a list of dimensions (or metrics) is replaced *)
Theorem C30_repeated_name_refuted : exists q q', ex_resolve [] q = Ok q' /\ In "region" (q_dims q').
Proof.
  exists (Query ["orders.total"] ["region"; "region"] CNone CNone CNone false). eexists. split; [vm_compute; reflexivity|]. right. left. reflexivity.
Qed.
(** In text the name is replaced inside longer names *)
Theorem C30_text_substring_refuted : exists t t', ex_resolve [] (Query ["orders.total"] [] (CText t) CNone CNone false) = Ok (Query ["orders.total"] [] (CText t') CNone CNone false) /\
  t = "my_region = 'x' and region = 'y'" /\ t' = "my_orders.region = 'x' and orders.region = 'y'".
Proof. eexists; eexists. split; [|split; reflexivity]. vm_compute. reflexivity. Qed.
(** Two mapped names are chosen independently of each other: each can be joined with the metric, all
    together cannot, although another choice would do *)
Theorem C30_choices_do_not_join_together_refuted : exists q', ex_resolve [] (Query ["orders.total"] ["a"; "b"] CNone CNone CNone false) = Ok q' /\
  q_dims q' = ["a.x"; "b.y"] /\
  (forall u, usable [("orders.total", ["subquery_0"; "subquery_1"; "merged_result_orders.total"]); ("a.x", ["subquery_0"]); ("b.y", ["subquery_1"])] = Ok u -> u = []) /\
  (exists u, usable [("orders.total", ["subquery_0"; "subquery_1"; "merged_result_orders.total"]); ("a.x", ["subquery_0"]); ("b.z", ["subquery_0"])] = Ok u /\ joinable_of u = ["subquery_0"]).
Proof. eexists. split; [vm_compute; reflexivity|]. split; [reflexivity|]. split; [intros u E; vm_compute in E; congruence | eexists; split; vm_compute; reflexivity]. Qed.
(** A single plain field without join graphs: TypeError instead of the QueryError *)
Theorem C30_lone_field_refuted : ex_resolve [] (Query ["lonely.m"] ["region"] CNone CNone CNone false) = Err TypeError.
Proof. vm_compute. reflexivity. Qed.
(** A mapped name given only for lookup breaks a query made of mapped names only *)
Theorem C30_lookup_only_refuted :
  (exists q', ex_resolve [] (Query [] ["a"] CNone CNone CNone false) = Ok q') /\ ex_resolve ["b"] (Query [] ["a"] CNone CNone CNone false) = Err QueryError.
Proof. split; [eexists|]; vm_compute; reflexivity. Qed.
Print Assumptions C30_repeated_name_refuted.
Print Assumptions C30_text_substring_refuted.
Print Assumptions C30_choices_do_not_join_together_refuted.
Print Assumptions C30_lone_field_refuted.
Print Assumptions C30_lookup_only_refuted.

Definition mm_fld (c : option string) (i : string) : mfld := MFld i [] c.
Definition mm_q : @query unit := Query [] ["a.x"; "b.y"] CNone CNone CNone false.
Example most_measures_example :
  replacement (fun s => Ok (mm_fld None s)) (String.eqb "date") (fun c => Ok (if String.eqb c "a.t" then 1 else 4)) (fun l => l)
    [("a.x", mm_fld (Some "a.t") "a.x"); ("b.y", mm_fld (Some "b.t") "b.y")] [] [] (Mapping "date" []) mm_q
  = Ok (mm_fld None "b.t_date", false).
Proof. reflexivity. Qed.
