(** C56: the answer of a query, from the request to the rows the database returns. *)
From Coq Require Import List String Ascii Bool QArith Qround Lia Permutation.
From Verif Require Import PyBase PyStr PySort PyList JoinGraph_Model JoinGraph_Spec JoinGraph_Props JoinOrder_Model JoinOrder_Spec JoinOrder_Nx JoinOrder_Props Rel_Model Rel_Spec Rel_Proofs Rel_Props
  Agg_Model Agg_Spec Agg_Proofs Agg_Props Clause_Model Clause_Spec Clause_Proofs Clause_Props Query_Model Query_Spec Query_Proofs.
Import ListNotations.
Local Open Scope string_scope.
Local Open Scope list_scope.
Local Open Scope nat_scope.

Section Answer.
  Context {V C : Type}.
  Variable get_field : string -> res qfield.
  Variable w : warehouse.
  Variable pk : string -> option string.
  Variable g : graph.
  Variable comp : list (list string * string).
  Variable topo : list vpair -> option (list vpair).
  Variable sp : string -> string -> option (list string).
  Variable as_list : list string -> list string.
  Variable valid : qfield -> V -> res unit.
  Variable compare : qfield -> V -> res (list C).
  Variable access : string -> res (list (string * list C)).
  Variable fuel : nat.
  Notation generate := (generate get_field w pk g comp topo sp as_list valid compare access fuel).

  Variable tab : string -> list nat.
  Variable on : join -> nat -> nat -> bool.
  Variable dim : string -> crow -> option string.
  Variable key : string -> nat -> option string.
  Variable num : string -> nat -> option Q.
  Variable arith : string -> list (option Q) -> option Q.
  Variable dim_holds : C -> option string -> tv.
  Variable num_holds : C -> option Q -> tv.
  Variable hash : sym -> string -> Z.

  Definition is_dimension (n : string) : Prop := exists f, get_field n = Ok f /\ qf_body f = BDim.
  (** Dimensions are dimensions, metrics are measures, conditions are on fields (no literal SQL) *)
  Definition proper (r : request V C) : Prop :=
    (forall n, In n (rq_dimensions r) -> is_dimension n) /\ (forall n, In n (rq_metrics r) -> is_metric get_field n) /\
    (forall t, In t (rq_where r) -> ~ has_lit t /\ forall n, In n (tree_fields t) -> is_dimension n) /\
    (forall t, In t (rq_having r) -> ~ has_lit t /\ forall n, In n (tree_fields t) -> is_metric get_field n).
  (** list(set(l)) *)
  Definition enumerates : Prop := forall l, NoDup (as_list l) /\ forall x, In x (as_list l) <-> In x l.
  (** a condition is at least one comparison *)
  Definition compares : Prop := forall f v cs, compare f v = Ok cs -> cs <> [].
  Definition filters_on_dimensions : Prop := forall v fs a cs, access v = Ok fs -> In (a, cs) fs -> is_dimension a.

  Lemma generate_inv r q : generate r = Ok q ->
    exists fs views acc req,
      mapM get_field (lookup_names r) = Ok fs /\ unique_views get_field as_list fuel fs = Ok views /\
      get_access_filter get_field w pk access fuel views = Ok acc /\ unique_views get_field as_list fuel (fs ++ snd acc) = Ok req /\
      joins g comp topo sp req = Ok (s_joins q) /\ base_view_name req (s_joins q) = Ok (s_base q) /\
      mapM (column get_field w pk fuel (fpk_of pk (s_base q) (s_joins q))) (rq_dimensions r ++ rq_metrics r) = Ok (s_select q) /\
      clause_of get_field w pk valid compare fuel (fpk_of pk (s_base q) (s_joins q)) (access_literal (fst acc)) (rq_where r) = Ok (s_where q) /\
      mapM (column get_field w pk fuel FNone) (rq_dimensions r) = Ok (s_group q) /\
      clause_of get_field w pk valid compare fuel (fpk_of pk (s_base q) (s_joins q)) None (rq_having r) = Ok (s_having q).
  Proof.
    unfold Query_Model.generate. intros H.
    apply bind_ok in H. destruct H as [fs [F H]]. apply bind_ok in H. destruct H as [views [Vs H]].
    apply bind_ok in H. destruct H as [acc [Ac H]]. apply bind_ok in H. destruct H as [req [Re H]].
    apply bind_ok in H. destruct H as [js [J H]]. apply bind_ok in H. destruct H as [base [B H]]. cbv zeta in H.
    apply bind_ok in H. destruct H as [sel [Se H]]. apply bind_ok in H. destruct H as [wh [Wh H]].
    apply bind_ok in H. destruct H as [gr [Gr H]]. apply bind_ok in H. destruct H as [hv [Hv H]]. injection H as <-.
    exists fs, views, acc, req. cbn [s_joins s_base s_select s_where s_group s_having]. repeat (split; [assumption|]). assumption.
  Qed.

  Lemma asked_lookup (r : request V C) n : asked r n <-> In n (lookup_names r).
  Proof.
    unfold asked, lookup_names. rewrite !in_app_iff, !in_flat_map. split.
    - intros [H|[H|[H|[t [[H|H] I]]]]]; eauto 10.
    - intros [H|[H|[[t [H I]]|[[t [H I]]|H]]]]; eauto 10.
  Qed.
  Lemma fields_found (r : request V C) fs n : mapM get_field (lookup_names r) = Ok fs -> asked r n -> exists f, In f fs /\ get_field n = Ok f.
  Proof. intros M H. apply asked_lookup in H. apply mapM_ok in M. destruct (Forall2_In_l _ _ _ M n H) as [f [F E]]. eauto. Qed.
  Lemma views_cover fs views : unique_views get_field as_list fuel fs = Ok views -> enumerates ->
    forall n f v, In f fs -> get_field n = Ok f -> mentions get_field n v -> In v views.
  Proof.
    intros U EN n f v F G M. unfold unique_views in U. apply bind_ok in U. destruct U as [vs [W U]]. injection U as <-.
    apply (proj2 (proj2 (EN vs) v)). apply (concatM_ok_In _ _ _ W).
    destruct (concatM_ok_all _ _ _ W f F) as [zs Z]. exists f, zs. split; auto. split; auto. eapply required_mentions; eauto.
  Qed.
  Lemma dim_sql k f n : qf_body f = BDim -> sql_query get_field w pk n k f = Ok (EDim (qf_id f)).
  Proof. intros B. destruct n; cbn [sql_query]; rewrite B; reflexivity. Qed.

  (** The comparisons of the access literal *)
  Lemma access_conditions views acc : get_access_filter get_field w pk access fuel views = Ok acc -> filters_on_dimensions ->
    (forall a, In a (fst acc) -> exists v fs n cs f x, In v views /\ access v = Ok fs /\ In (n, cs) fs /\ In x cs /\ get_field n = Ok f /\ a = (EDim (qf_id f), x)) /\
    (forall v fs n cs x, In v views -> access v = Ok fs -> In (n, cs) fs -> In x cs ->
       exists f, get_field n = Ok f /\ In (EDim (qf_id f), x) (fst acc) /\ In f (snd acc)).
  Proof.
    intros H FD. unfold get_access_filter in H. apply bind_ok in H. destruct H as [rs [R H]].
    assert (FST : fst acc = flat_map fst rs) by (destruct (flat_map fst rs); injection H as <-; reflexivity).
    assert (SND : flat_map fst rs <> [] -> snd acc = map snd rs) by (destruct (flat_map fst rs); [congruence|]; injection H as <-; reflexivity).
    assert (ONE : forall x, In x rs <-> exists v fs n cs, In v views /\ access v = Ok fs /\ In (n, cs) fs /\
              (f <- get_field n ;; e <- sql_query get_field w pk fuel FNone f ;; Ok (map (fun c => (e, c)) cs, f)) = Ok x).
    { intros x. rewrite (concatM_ok_In _ _ _ R). split.
      - intros [v [zs [Vv [Z I]]]]. apply bind_ok in Z. destruct Z as [fs [A Z]]. apply mapM_ok in Z.
        destruct (Forall2_In_r _ _ _ Z x I) as [[n cs] [N E]]. exists v, fs, n, cs. auto.
      - intros [v [fs [n [cs [Vv [A [N E]]]]]]]. destruct (concatM_ok_all _ _ _ R v Vv) as [zs Z]. exists v, zs. split; auto. split; auto.
        apply bind_ok in Z. destruct Z as [fs' [A' Z]]. assert (fs' = fs) by congruence. subst fs'. apply mapM_ok in Z.
        destruct (Forall2_In_l _ _ _ Z (n, cs) N) as [y [Y E']]. cbn [fst snd] in E'. rewrite E in E'. injection E' as ->. exact Y. }
    split.
    - intros a I. rewrite FST in I. apply in_flat_map in I. destruct I as [x [X I]]. apply ONE in X. destruct X as [v [fs [n [cs [Vv [A [N E]]]]]]].
      apply bind_ok in E. destruct E as [f [G E]]. destruct (FD _ _ _ _ A N) as [f' [G' B]]. assert (f' = f) by congruence. subst f'.
      rewrite (dim_sql _ _ _ B) in E. injection E as <-. cbn [fst] in I. apply in_map_iff in I. destruct I as [c [<- I]].
      exists v, fs, n, cs, f, c. auto 10.
    - intros v fs n cs x Vv A N X. destruct (FD _ _ _ _ A N) as [f [G B]]. exists f. split; auto.
      assert (I : In (map (fun c => (EDim (qf_id f), c)) cs, f) rs).
      { apply ONE. exists v, fs, n, cs. split; auto. split; auto. split; auto. rewrite G. cbn [bind]. rewrite (dim_sql _ _ _ B). reflexivity. }
      assert (J : In (EDim (qf_id f), x) (flat_map fst rs)).
      { apply in_flat_map. eexists. split; [exact I|]. cbn [fst]. apply in_map_iff. eauto. }
      split; [rewrite FST; exact J|]. rewrite SND; [|intros Z; rewrite Z in J; destruct J].
      apply in_map_iff. eexists. split; [|exact I]. reflexivity.
  Qed.

  (** C56: the rows that count are the rows of the FROM clause that satisfy the access filters of every view of the
      fields asked for and every condition of the request. *)
  Theorem C56_rows r q keep :
    generate r = Ok q -> proper r -> enumerates -> compares -> filters_on_dimensions ->
    reads_as (row_truth dim dim_holds) (s_where q) keep ->
    forall c, keep c = true <->
      permitted dim dim_holds get_field access r c /\
      forall t, In t (rq_where r) -> row_filter dim dim_holds get_field compare c t = Some true.
  Proof.
    intros GE [_ [_ [PW _]]] EN CO FD RD c.
    destruct (generate_inv r q GE) as [fs [views [acc [req [F [U [AC [_ [_ [_ [_ [W _]]]]]]]]]]]].
    destruct (access_conditions views acc AC FD) as [AC1 AC2].
    rewrite (RD c).
    assert (PERM : permitted dim dim_holds get_field access r c <-> Forall (fun a => row_truth dim dim_holds c a = Some true) (fst acc)).
    { rewrite Forall_forall. split.
      - intros P a A. destruct (AC1 a A) as [v [ls [n [cs [f [x [Vv [Ac [N [X [G ->]]]]]]]]]]]. cbn [row_truth fst snd].
        assert (exists m, asked r m /\ mentions get_field m v) as [m [Am Mm]].
        { unfold unique_views in U. apply bind_ok in U. destruct U as [vs [W' U]]. injection U as <-. apply (proj1 (proj2 (EN vs) v)) in Vv.
          apply (concatM_ok_In _ _ _ W') in Vv. destruct Vv as [h [zs [Hh [Z Vv]]]]. apply mapM_ok in F.
          destruct (Forall2_In_r _ _ _ F h Hh) as [m [Mi E]]. exists m. split; [apply asked_lookup; auto|]. eapply required_mentions; eauto. }
        specialize (P m v ls n cs x Am Mm Ac N X). unfold dim_named in P. rewrite G in P. exact P.
      - intros A m v ls n cs x Am Mm Ac N X. destruct (fields_found r fs m F Am) as [f [Ff G]].
        pose proof (views_cover fs views U EN m f v Ff G Mm) as Vv. destruct (AC2 v ls n cs x Vv Ac N X) as [h [Gh [I _]]].
        specialize (A _ I). cbn [row_truth fst snd] in A. unfold dim_named. rewrite Gh. exact A. }
    set (lv := all3 (map (row_truth dim dim_holds c) (fst acc))).
    assert (LV : lv = Some true <-> Forall (fun a => row_truth dim dim_holds c a = Some true) (fst acc)).
    { unfold lv. rewrite all3_true, Forall_map. reflexivity. }
    pose proof (clause_reads (leaf_ok get_field valid) (comparisons get_field w pk compare fuel (fpk_of pk (s_base q) (s_joins q)))
      (row_truth dim dim_holds c) (fun l => condition get_field compare dim_holds l (dim_named dim get_field (fst l) c))
      (access_literal (fst acc)) lv (rq_where r) (s_where q)) as CR.
    assert (K : match s_where q with
                | None => access_literal (fst acc) = None /\ rq_where r = []
                | Some ts => forall x, sql_or (row_truth dim dim_holds c) ts x <->
                    x = all3 ((match access_literal (fst acc) with Some _ => [lv] | None => [] end)
                              ++ map (row_filter dim dim_holds get_field compare c) (rq_where r))
                end).
    { apply CR; clear CR.
      - unfold access_literal. destruct (fst acc) as [|a l] eqn:E; [exact I|]. apply and_tokens_reads. discriminate.
      - intros t l cs T L E. destruct (PW t T) as [_ D]. destruct (D (fst l) (leaf_of_fields _ _ L)) as [f [G B]].
        unfold comparisons in E. rewrite G in E. cbn [bind] in E. rewrite (dim_sql _ _ _ B) in E. cbn [bind] in E.
        apply bind_ok in E. destruct E as [xs [X E]]. injection E as <-. split.
        + intros Z. apply map_eq_nil in Z. exact (CO _ _ _ X Z).
        + unfold condition. rewrite G, X. rewrite map_map. unfold dim_named. rewrite G. reflexivity.
      - intros t T. apply PW. exact T.
      - exact W. }
    clear CR.
    assert (FT : forall l, Forall (fun x : tv => x = Some true) (map (row_filter dim dim_holds get_field compare c) l) <->
                   forall t, In t l -> row_filter dim dim_holds get_field compare c t = Some true).
    { intros l. rewrite Forall_map, Forall_forall. reflexivity. }
    destruct (s_where q) as [ts|].
    - rewrite K. rewrite PERM, <- LV.
      assert (E : Some true = all3 ((match access_literal (fst acc) with Some _ => [lv] | None => [] end) ++ map (row_filter dim dim_holds get_field compare c) (rq_where r))
        <-> lv = Some true /\ forall t, In t (rq_where r) -> row_filter dim dim_holds get_field compare c t = Some true).
      { split; intros H.
        - symmetry in H. apply all3_true in H. apply Forall_app in H. destruct H as [H1 H2]. split; [|apply FT; exact H2].
          unfold access_literal in H1. destruct (fst acc) eqn:E; [unfold lv; reflexivity|]. inversion H1; auto.
        - symmetry. apply all3_true. apply Forall_app. split; [|apply FT; tauto]. destruct (access_literal (fst acc)); [|constructor]. repeat constructor. tauto. }
      exact E.
    - destruct K as [K1 K2]. rewrite PERM, <- LV. split; [|auto]. intros _. split; [|rewrite K2; intros t []].
      unfold access_literal in K1. unfold lv. destruct (fst acc); [reflexivity|discriminate].
  Qed.

  (** C56: the FROM clause holds every view that a field asked for, or an access filter that applies, reads; it is a
      tree of joins of the project. *)
  Theorem C56_from gvs r q :
    build gvs = Ok g -> no_self_reference gvs -> topological_contract topo -> shortest_path_contract g sp -> enumerates -> filters_on_dimensions ->
    (exists n, asked r n) -> generate r = Ok q ->
    exists final, joins_from g [s_base q] (s_joins q) final /\
      (forall n v, asked r n -> mentions get_field n v -> In v final) /\
      (forall n v fs a cs x u, asked r n -> mentions get_field n v -> access v = Ok fs -> In (a, cs) fs -> In x cs -> mentions get_field a u -> In u final).
  Proof.
    intros B NS TC SC EN FD [n0 A0] GE.
    destruct (generate_inv r q GE) as [fs [views [acc [req [F [U [AC [U2 [J [BV _]]]]]]]]]].
    assert (ND : NoDup req).
    { unfold unique_views in U2. apply bind_ok in U2. destruct U2 as [vs [_ U2]]. injection U2 as <-. apply EN. }
    assert (CV : forall n v, asked r n -> mentions get_field n v -> In v req).
    { intros n v A M. destruct (fields_found r fs n F A) as [f [Ff G]]. eapply views_cover; eauto. apply in_or_app. auto. }
    assert (NE : req <> []).
    { destruct (fields_found r fs n0 F A0) as [f [_ G]]. pose proof (CV n0 (qf_view f) A0 (mentions_own _ _ _ G)) as I. intros ->. destruct I. }
    destruct (C13_from_clause_well_formed gvs g comp topo sp req (s_joins q) B NS TC SC NE ND J) as [base [final [BV' [JF IN]]]].
    assert (base = s_base q) by congruence. subst base. exists final. split; auto. split; [intros; apply IN; eauto|].
    intros n v ls a cs x u A M Ac I X Mu. apply IN. destruct (fields_found r fs n F A) as [f [Ff G]].
    pose proof (views_cover fs views U EN n f v Ff G M) as Vv.
    destruct (access_conditions views acc AC FD) as [_ AC2]. destruct (AC2 v ls a cs x Vv Ac I X) as [h [Gh [_ Hh]]].
    eapply views_cover; eauto. apply in_or_app. auto.
  Qed.

  Definition combination (r : request V C) (c : crow) : list (option string) := map (fun n => dim_named dim get_field n c) (rq_dimensions r).
  Definition group_of (r : request V C) (rows : list crow) (k : list (option string)) : list crow := filter (fun c => key_is (combination r c) k) rows.
  Definition present (r : request V C) (rows : list crow) (k : list (option string)) : Prop :=
    (rq_dimensions r = [] /\ k = []) \/ (rq_dimensions r <> [] /\ exists c, In c rows /\ k = combination r c).
  Definition in_having (r : request V C) (n : string) : Prop := exists t, In t (rq_having r) /\ In n (tree_fields t).

  Lemma group_columns (r : request V C) (q : qsql C) : mapM (column get_field w pk fuel FNone) (rq_dimensions r) = Ok (s_group q) -> (forall n, In n (rq_dimensions r) -> is_dimension n) ->
    (forall c, key_of dim (s_group q) c = combination r c) /\ (s_group q = [] <-> rq_dimensions r = []).
  Proof.
    intros M D. apply mapM_ok in M. split.
    - intros c. unfold key_of, combination. induction M as [|n e ns es E M IH]; [reflexivity|]. cbn [map].
      rewrite IH by (intros; apply D; right; auto). f_equal. destruct (D n (or_introl eq_refl)) as [f [G B]].
      unfold column in E. rewrite G in E. cbn [bind] in E. rewrite (dim_sql _ _ _ B) in E. injection E as <-. unfold dim_named. rewrite G. reflexivity.
    - inversion M; subst; split; intros; congruence.
  Qed.
  Lemma key_is_spec a b : key_is a b = true <-> a = b.
  Proof. unfold key_is. destruct (row_key_dec a b); split; congruence. Qed.

  (** C56: one row for each combination of the dimensions among the rows that count, kept when the group satisfies
      every condition on measures; its cells are the combination, then each measure computed over the rows of its own
      view in the group, each once. *)
  Theorem C56_answer gvs r q keep hold :
    build gvs = Ok g -> no_self_reference gvs -> topological_contract topo -> shortest_path_contract g sp -> enumerates -> compares -> filters_on_dimensions ->
    (exists n, asked r n) -> generate r = Ok q -> proper r ->
    reads_as (group_truth key num arith num_holds hash) (s_having q) hold ->
    (forall id xs ys, Forall2 qeq xs ys -> qeq (arith id xs) (arith id ys)) -> (forall c x y, qeq x y -> num_holds c x = num_holds c y) ->
    (forall v, NoDup (tab v)) -> (forall j, In j (s_joins q) -> agrees tab on (jrel j) j) -> chained [s_base q] (s_joins q) ->
    (forall v, has_char "."%char v = false \/ pk v = None) ->
    (forall v x, In x (tab v) -> key v x <> None) -> (forall v, unique_key (key v) (tab v)) ->
    let rows := filter keep (from_rows tab on q) in
    (forall k n h t b, present r rows k -> In n (rq_metrics r) \/ in_having r n -> made_of get_field n h t b ->
       grain_ok w pk (s_base q) (s_joins q) hash (qf_view h) t b (own_of (qf_view h) (key (qf_view h)) (num (qf_id h)) (group_of r rows k))) ->
    exists ks, NoDup ks /\
      (forall k, In k ks <-> present r rows k /\
         forall t, In t (rq_having r) -> group_filter key num arith num_holds get_field compare fuel (group_of r rows k) t = Some true) /\
      Forall2 (fun k out => exists cells, out = map CDim k ++ cells /\
                 Forall2 (fun m c => exists x, c = CNum x /\ qeq x (measure key num arith get_field fuel (group_of r rows k) m)) (rq_metrics r) cells)
        ks (run tab on dim key num arith hash keep hold q).
  Proof.
    intros B NS TC SC EN CO FD NA GE PR RD AE NH TND AG CH DOT KN KU rows GR.
    destruct (C56_from gvs r q B NS TC SC EN FD NA GE) as [final [JF _]].
    destruct PR as [PD [PM [_ PH]]].
    destruct (generate_inv r q GE) as [fs [views [acc [req [_ [_ [_ [_ [_ [_ [SE [_ [GC HV]]]]]]]]]]]]].
    destruct (group_columns r q GC PD) as [KEY EMP].
    set (k0 := fpk_of pk (s_base q) (s_joins q)) in *.
    (* groups as filters of the FROM clause *)
    set (pk_of := fun k c => key_is (combination r c) k && keep c).
    assert (GF : forall k, group_of r rows k = filter (pk_of k) (joined tab on kind_of (s_base q) (s_joins q))).
    { intros k. unfold group_of, rows, from_rows, pk_of. generalize (joined tab on kind_of (s_base q) (s_joins q)). intros l.
      induction l as [|c l IH]; [reflexivity|]. cbn [filter]. destruct (keep c); cbn [filter]; [|rewrite andb_false_r; exact IH].
      rewrite andb_true_r. destruct (key_is (combination r c) k); [f_equal|]; exact IH. }
    assert (ME : forall k n f e, present r rows k -> In n (rq_metrics r) \/ in_having r n -> is_metric get_field n -> get_field n = Ok f ->
              sql_query get_field w pk fuel k0 f = Ok e ->
              qeq (value key num arith hash e (group_of r rows k)) (measure key num arith get_field fuel (group_of r rows k) n) /\ (forall id, e <> EDim id)).
    { intros k n f e P I M G E. rewrite GF. eapply metric_exact; eauto. intros h t b MO. rewrite <- GF. eapply GR; eauto. }
    (* HAVING *)
    assert (HO : forall k, present r rows k -> (hold (group_of r rows k) = true <->
              forall t, In t (rq_having r) -> group_filter key num arith num_holds get_field compare fuel (group_of r rows k) t = Some true)).
    { intros k P. rewrite (RD (group_of r rows k)).
      pose proof (clause_reads (leaf_ok get_field valid) (comparisons get_field w pk compare fuel k0) (group_truth key num arith num_holds hash (group_of r rows k))
        (fun l => condition get_field compare num_holds l (measure key num arith get_field fuel (group_of r rows k) (fst l))) None None (rq_having r) (s_having q) I) as CR.
      assert (K : match s_having q with
                  | None => @None (list (tok (sexp * C))) = None /\ rq_having r = []
                  | Some ts => forall x, sql_or (group_truth key num arith num_holds hash (group_of r rows k)) ts x <->
                      x = all3 ([] ++ map (group_filter key num arith num_holds get_field compare fuel (group_of r rows k)) (rq_having r))
                  end).
      { apply CR; clear CR.
        - intros t l cs T L E. destruct (PH t T) as [_ D]. pose proof (leaf_of_fields _ _ L) as LF. pose proof (D (fst l) LF) as M.
          unfold comparisons in E. apply bind_ok in E. destruct E as [f [G E]]. apply bind_ok in E. destruct E as [e [Sq E]].
          apply bind_ok in E. destruct E as [xs [X E]]. injection E as <-. split.
          + intros Z. apply map_eq_nil in Z. exact (CO _ _ _ X Z).
          + unfold condition. rewrite G, X. rewrite map_map. f_equal. apply map_ext. intros c. unfold group_truth. cbn [fst snd].
            symmetry. apply NH. eapply ME; eauto. right. exists t. auto.
        - intros t T. apply PH. exact T.
        - exact HV. }
      assert (FT : Forall (fun x : tv => x = Some true) (map (group_filter key num arith num_holds get_field compare fuel (group_of r rows k)) (rq_having r)) <->
                   forall t, In t (rq_having r) -> group_filter key num arith num_holds get_field compare fuel (group_of r rows k) t = Some true).
      { rewrite Forall_map, Forall_forall. reflexivity. }
      destruct (s_having q) as [ts|].
      - rewrite K. cbn [app]. rewrite <- FT, <- all3_true. split; congruence.
      - destruct K as [_ K]. split; auto. intros _ t T. rewrite K in T. destruct T. }
    (* the groups *)
    assert (GS : forall k, In k (groups dim (s_group q) rows) <-> present r rows k).
    { intros k. unfold groups, present. destruct (s_group q) as [|e es] eqn:Eg.
      - assert (D : rq_dimensions r = []) by (apply EMP; reflexivity). split; [intros [<-|[]]; left; auto|]. intros [[_ ->]|[N _]]; [left; auto|congruence].
      - assert (D : rq_dimensions r <> []) by (intros Z; apply EMP in Z; discriminate).
        rewrite nodup_In, in_map_iff. split.
        + intros [c [<- I]]. right. split; auto. exists c. split; auto.
        + intros [[Z _]|[_ [c [I ->]]]]; [congruence|]. exists c. split; auto. }
    assert (NDG : NoDup (groups dim (s_group q) rows)).
    { unfold groups. destruct (s_group q); [repeat constructor; intros []|apply NoDup_nodup]. }
    exists (filter (fun k => hold (group_of r rows k)) (groups dim (s_group q) rows)).
    split; [apply NoDup_filter; exact NDG|]. split.
    - intros k. rewrite filter_In, GS. split; intros [P H]; split; auto; apply (HO k P); exact H.
    - unfold run. fold rows.
      assert (EG : forall k, filter (fun c => key_is (key_of dim (s_group q) c) k) rows = group_of r rows k).
      { intros k. unfold group_of. apply filter_ext. intros c. rewrite KEY. reflexivity. }
      assert (CELLS : forall k, present r rows k ->
                exists cells, map (cell_of dim key num arith hash (group_of r rows k)) (s_select q) = map CDim k ++ cells /\
                  Forall2 (fun m c => exists x, c = CNum x /\ qeq x (measure key num arith get_field fuel (group_of r rows k) m)) (rq_metrics r) cells).
      { intros k P. apply mapM_ok in SE. apply Forall2_app_inv_l in SE. destruct SE as [ds [ms [SD [SM ES]]]]. rewrite ES, map_app.
        exists (map (cell_of dim key num arith hash (group_of r rows k)) ms). split.
        - f_equal.
          assert (K : match rq_dimensions r with [] => k = [] | _ => exists c l, group_of r rows k = c :: l /\ k = combination r c end).
          { destruct P as [[Z ->]|[N [c [I ->]]]]; [rewrite Z; reflexivity|].
            destruct (rq_dimensions r) as [|d dl] eqn:Ed; [congruence|].
            assert (I' : In c (group_of r rows (combination r c))) by (apply filter_In; split; auto; apply key_is_spec; reflexivity).
            destruct (group_of r rows (combination r c)) as [|c' l] eqn:Eg; [destruct I'|]. exists c', l. split; auto.
            assert (I2 : In c' (group_of r rows (combination r c))) by (rewrite Eg; left; auto).
            apply filter_In in I2. destruct I2 as [_ I2]. apply key_is_spec in I2. auto. }
          destruct (rq_dimensions r) as [|d dl] eqn:Ed.
          + inversion SD; subst. reflexivity.
          + destruct K as [c [l [Gc ->]]]. rewrite Gc. unfold combination. rewrite Ed. rewrite <- Ed in SD, PD |- *. clear - SD PD.
            induction SD as [|n e ns es E SD IH]; [reflexivity|]. cbn [map]. rewrite IH by (intros; apply PD; right; auto). f_equal.
            destruct (PD n (or_introl eq_refl)) as [f [G Bd]]. unfold column in E. rewrite G in E. cbn [bind] in E. rewrite (dim_sql _ _ _ Bd) in E. injection E as <-.
            unfold dim_named. rewrite G. reflexivity.
        - assert (PM' : forall n, In n (rq_metrics r) -> is_metric get_field n) by exact PM.
          assert (INC : forall n, In n (rq_metrics r) -> In n (rq_metrics r) \/ in_having r n) by auto. clear ES. revert PM' INC SM. generalize (rq_metrics r) at 1 2 4 5. intros l PM' INC SM.
          induction SM as [|n e ns es E SM IH]; [constructor|]. cbn [map]. constructor.
          + unfold column in E. apply bind_ok in E. destruct E as [f [G E]]. destruct (ME k n f e P (INC n (or_introl eq_refl)) (PM' n (or_introl eq_refl)) G E) as [Q ND].
            exists (value key num arith hash e (group_of r rows k)). split; auto. destruct e; [exfalso; eapply ND; reflexivity|reflexivity|reflexivity].
          + apply IH; intros; [apply PM'|apply INC]; right; auto. }
      assert (GP : forall k, In k (groups dim (s_group q) rows) -> present r rows k) by (intros; apply GS; auto).
      revert GP. generalize (groups dim (s_group q) rows). intros l GP. induction l as [|k l IH]; [constructor|]. cbn [filter flat_map].
      rewrite EG. destruct (hold (group_of r rows k)).
      + cbn [app]. constructor; [apply CELLS; apply GP; left; auto|]. apply IH. intros; apply GP; right; auto.
      + apply IH. intros; apply GP; right; auto.
  Qed.
  (** ** The clauses of a generated query can be read in one way only *)
  Definition reader {X} (truth : X -> sexp * C -> tv) (k : fpk) (lits : list (sexp * C)) (fs : list (ftree (sexp * C) (string * V))) (x : X) : bool :=
    match all3 ((match lits with [] => [] | _ => [all3 (map (truth x) lits)] end)
                ++ map (meaning (fun l => match comparisons get_field w pk compare fuel k l with Ok cs => all3 (map (truth x) cs) | Err _ => None end) (fun _ => None)) fs) with
    | Some true => true
    | _ => false
    end.
  Lemma reader_reads {X} (truth : X -> sexp * C -> tv) k lits fs out : compares -> (forall t, In t fs -> ~ has_lit t) ->
    clause_of get_field w pk valid compare fuel k (access_literal lits) fs = Ok out -> reads_as truth out (reader truth k lits fs).
  Proof.
    intros CO NL W x.
    pose proof (clause_reads (leaf_ok get_field valid) (comparisons get_field w pk compare fuel k) (truth x)
      (fun l => match comparisons get_field w pk compare fuel k l with Ok cs => all3 (map (truth x) cs) | Err _ => None end)
      (access_literal lits) (all3 (map (truth x) lits)) fs out) as K.
    assert (K1 := K ltac:(clear; destruct lits as [|a l]; [exact I|apply and_tokens_reads; discriminate])).
    clear K. assert (K2 : match out with
      | None => access_literal lits = None /\ fs = []
      | Some ts => forall y, sql_or (truth x) ts y <-> y = all3 ((match access_literal lits with Some _ => [all3 (map (truth x) lits)] | None => [] end)
          ++ map (meaning (fun l => match comparisons get_field w pk compare fuel k l with Ok cs => all3 (map (truth x) cs) | Err _ => None end) (fun _ => None)) fs)
      end).
    { apply K1; [|exact NL|exact W]. intros t l cs T L E. rewrite E. split; auto.
      unfold comparisons in E. apply bind_ok in E. destruct E as [f [G E]]. apply bind_ok in E. destruct E as [e [Sq E]].
      apply bind_ok in E. destruct E as [xs [Xs E]]. injection E as <-. intros Z. apply map_eq_nil in Z. exact (CO _ _ _ Xs Z). }
    clear K1. unfold reader. destruct out as [ts|].
    - rewrite K2. destruct lits; cbn [access_literal]; destruct (all3 _) as [[|]|]; split; congruence.
    - destruct K2 as [A ->]. destruct lits; [|discriminate]. cbn. tauto.
  Qed.
  Theorem C56_clauses_readable r q : generate r = Ok q -> compares -> proper r ->
    (exists keep, reads_as (row_truth dim dim_holds) (s_where q) keep) /\
    (exists hold, reads_as (group_truth key num arith num_holds hash) (s_having q) hold).
  Proof.
    intros GE CO [_ [_ [PW PH]]].
    destruct (generate_inv r q GE) as [fs [views [acc [req [_ [_ [_ [_ [_ [_ [_ [W [_ HV]]]]]]]]]]]]].
    split; eexists.
    - eapply reader_reads; [exact CO| |exact W]. intros t T. apply PW. exact T.
    - apply (reader_reads _ _ [] _ _ CO (fun t T => proj1 (PH t T)) HV).
  Qed.
End Answer.
Print Assumptions C56_clauses_readable.
Print Assumptions C56_rows.
Print Assumptions C56_from.
Print Assumptions C56_answer.

(** ** A case: orders with a total and a status, customers with a region and a credit; the user may see the region
    north only, which is asked for by an access filter. *)
Inductive cmp := CIs (s : string) | COver (q : Q).
Definition q_views : list gview := [GView "customers" [simple_id "customer_id" TPrimary]; GView "orders" [simple_id "customer_id" TForeign; simple_id "order_id" TPrimary]].
Definition q_graph : graph := match build q_views with Ok g => g | Err _ => [] end.
Definition q_fields : list qfield :=
  [ QField "orders" "total" (BAgg TSum false) "orders.amount" [] "orders.order_id" "";
    QField "orders" "status" BDim "orders.status" [] "" "";
    QField "customers" "credit" (BAgg TSum false) "customers.credit" [] "customers.customer_id" "";
    QField "customers" "region" BDim "customers.region" [] "" "";
    QField "orders" "rate" BNum "${orders.total} / ${customers.credit}" ["orders.total"; "customers.credit"] "" "" ].
Definition q_get (n : string) : res qfield := match find (fun f => String.eqb (qf_id f) n) q_fields with Some f => Ok f | None => Err AccessDenied end.
Definition q_pk (v : string) : option string :=
  if String.eqb v "orders" then Some "order_id" else if String.eqb v "customers" then Some "customer_id" else None.
Definition q_access (v : string) : res (list (string * list cmp)) := Ok (if String.eqb v "customers" then [("customers.region", [CIs "north"])] else []).
Definition q_request : request cmp cmp :=
  Request ["orders.total"; "customers.credit"; "orders.rate"] ["customers.region"]
    [FLeaf ("orders.status", CIs "paid")] [FLeaf ("orders.total", COver 6)] [].
(** orders 1 2 3 of customer 1, order 4 of customer 2, order 5 of nobody; order 3 is not paid *)
Definition q_tab (v : string) : list nat := if String.eqb v "orders" then [1; 2; 3; 4; 5] else if String.eqb v "customers" then [1; 2] else [].
Definition q_on (j : join) (u v : nat) : bool := match u with 1 | 2 | 3 => Nat.eqb v 1 | 4 => Nat.eqb v 2 | _ => false end.
Definition q_dim (id : string) (c : crow) : option string :=
  if String.eqb id "orders.status" then match assoc "orders" c with Some r => Some (if Nat.eqb r 3 then "open" else "paid") | None => None end
  else match assoc "customers" c with Some r => Some (if Nat.eqb r 1 then "north" else "south") | None => None end.
Definition q_key (v : string) (r : nat) : option string := Some (String (ascii_of_nat (96 + r)) "").
Definition q_num (id : string) (r : nat) : option Q := Some (if String.eqb id "customers.credit" then 10%Q else inject_Z (Z.of_nat r * 3)).
Definition q_arith (id : string) (xs : list (option Q)) : option Q := match xs with [Some a; Some b] => Some (Qdiv a b) | _ => None end.
Definition q_dim_holds (c : cmp) (x : option string) : tv := match c, x with CIs s, Some y => Some (String.eqb s y) | _, _ => None end.
Definition q_num_holds (c : cmp) (x : option Q) : tv := match c, x with COver q, Some y => Some (negb (Qle_bool y q)) | _, _ => None end.
Definition q_generate := generate q_get Snowflake q_pk q_graph (composite_keys q_views) nx_topo (nx_sp q_graph) (nodup string_dec) (fun _ _ => Ok tt) (fun _ v => Ok [v]) q_access 3.
Definition q_keep (c : crow) : bool := reader q_get Snowflake q_pk (fun _ v => Ok [v]) 3 (row_truth q_dim q_dim_holds) (FKey "orders.order_id") [(EDim "customers.region", CIs "north")] (rq_where q_request) c.
Definition q_hold (l : list crow) : bool := reader q_get Snowflake q_pk (fun _ v => Ok [v]) 3 (group_truth q_key q_num q_arith q_num_holds h0) (FKey "orders.order_id") [] (rq_having q_request) l.
Example C56_case : exists q,
  build q_views = Ok q_graph /\ no_self_reference q_views /\ enumerates (nodup string_dec) /\ compares (fun (_ : qfield) (v : cmp) => Ok [v]) /\
  filters_on_dimensions q_get q_access /\ q_generate q_request = Ok q /\ proper q_get q_request /\
  reads_as (row_truth q_dim q_dim_holds) (s_where q) q_keep /\ reads_as (group_truth q_key q_num q_arith q_num_holds h0) (s_having q) q_hold /\
  (forall id xs ys, Forall2 qeq xs ys -> qeq (q_arith id xs) (q_arith id ys)) /\ (forall c x y, qeq x y -> q_num_holds c x = q_num_holds c y) /\
  (forall v, NoDup (q_tab v)) /\ (forall j, In j (s_joins q) -> agrees q_tab q_on (jrel j) j) /\ chained [s_base q] (s_joins q) /\
  (forall v, has_char "."%char v = false \/ q_pk v = None) /\
  (forall v x, In x (q_tab v) -> q_key v x <> None) /\ (forall v, unique_key (q_key v) (q_tab v)) /\
  (let rows := filter q_keep (from_rows q_tab q_on q) in
   forall k n h t b, present q_get q_dim q_request rows k -> In n (rq_metrics q_request) \/ in_having q_request n -> made_of q_get n h t b ->
     grain_ok Snowflake q_pk (s_base q) (s_joins q) h0 (qf_view h) t b
       (own_of (qf_view h) (q_key (qf_view h)) (q_num (qf_id h)) (group_of q_get q_dim q_request rows k))) /\
  s_base q = "orders" /\ map jn_view (s_joins q) = ["customers"] /\
  exists a b c, run q_tab q_on q_dim q_key q_num q_arith h0 q_keep q_hold q = [[CDim (Some "north"); CNum (Some a); CNum (Some b); CNum (Some c)]] /\
    Qeq a 9 /\ Qeq b 10 /\ Qeq c (9 # 10).
Proof.
  set (jn0 := match get_join q_graph "orders" "customers" with Ok j => j | Err _ => Join "" "" (Edge M2O "" "" 0) end).
  assert (MD : forall n h t b, made_of q_get n h t b -> In n (rq_metrics q_request) \/ in_having q_request n ->
            t = TSum /\ b = false /\ (qf_id h = "orders.total" /\ qf_view h = "orders" \/ qf_id h = "customers.credit" /\ qf_view h = "customers")).
  { assert (K1 : forall h t b, made_of q_get "orders.total" h t b -> t = TSum /\ b = false /\ qf_id h = "orders.total" /\ qf_view h = "orders").
    { intros h t b M. inversion M as [n f t' b' G B|n f r h' t' b' G B]; subst; vm_compute in G; injection G as <-; vm_compute in B; try discriminate.
      injection B as <- <-. auto. }
    assert (K2 : forall h t b, made_of q_get "customers.credit" h t b -> t = TSum /\ b = false /\ qf_id h = "customers.credit" /\ qf_view h = "customers").
    { intros h t b M. inversion M as [n f t' b' G B|n f r h' t' b' G B]; subst; vm_compute in G; injection G as <-; vm_compute in B; try discriminate.
      injection B as <- <-. auto. }
    assert (K3 : forall h t b, made_of q_get "orders.rate" h t b -> made_of q_get "orders.total" h t b \/ made_of q_get "customers.credit" h t b).
    { intros h t b M. inversion M as [n f t' b' G B|n f r h' t' b' G B R M']; subst; vm_compute in G; injection G as <-; vm_compute in B; try discriminate.
      destruct R as [<-|[<-|[]]]; auto. }
    assert (K4 : forall h t b, made_of q_get "orders.total" h t b \/ made_of q_get "customers.credit" h t b ->
              t = TSum /\ b = false /\ (qf_id h = "orders.total" /\ qf_view h = "orders" \/ qf_id h = "customers.credit" /\ qf_view h = "customers")).
    { intros h t b [M|M]; [apply K1 in M|apply K2 in M]; intuition. }
    intros n h t b M [I|I].
    - destruct I as [<-|[<-|[<-|[]]]]; auto.
    - destruct I as [t0 [[<-|[]] [<-|[]]]]. auto. }
  eexists. split; [reflexivity|]. split.
  { intros v i V I T. simpl in V. destruct V as [<-|[<-|[]]]; simpl in I; repeat (destruct I as [<-|I]; [discriminate|]); destruct I. }
  split. { intros l. split; [apply NoDup_nodup|]. intros x. apply nodup_In. }
  split. { intros f v cs E. injection E as <-. discriminate. }
  split. { intros v fs a cs E I. injection E as <-. destruct (String.eqb v "customers"); [|destruct I]. destruct I as [I|[]]. injection I as <- _.
    eexists. split; vm_compute; reflexivity. }
  split; [vm_compute; reflexivity|]. split.
  { split; [|split; [|split]].
    - intros n [<-|[]]. eexists. split; vm_compute; reflexivity.
    - assert (A : is_metric q_get "orders.total") by (eapply metric_agg; vm_compute; reflexivity).
      assert (B : is_metric q_get "customers.credit") by (eapply metric_agg; vm_compute; reflexivity).
      intros n [<-|[<-|[<-|[]]]]; auto. eapply metric_num; [vm_compute; reflexivity|vm_compute; reflexivity|].
      intros r [<-|[<-|[]]]; auto.
    - intros t [<-|[]]. split; [intros H; inversion H|]. intros n [<-|[]]. eexists. split; vm_compute; reflexivity.
    - intros t [<-|[]]. split; [intros H; inversion H|]. intros n [<-|[]]. eapply metric_agg; vm_compute; reflexivity. }
  split. { apply (reader_reads q_get Snowflake q_pk (fun _ _ => Ok tt) (fun _ v => Ok [v]) 3 (row_truth q_dim q_dim_holds) (FKey "orders.order_id")
      [(EDim "customers.region", CIs "north")] (rq_where q_request)).
    - intros f v cs E. injection E as <-. discriminate.
    - intros t [<-|[]] H. inversion H.
    - vm_compute. reflexivity. }
  split. { apply (reader_reads q_get Snowflake q_pk (fun _ _ => Ok tt) (fun _ v => Ok [v]) 3 (group_truth q_key q_num q_arith q_num_holds h0) (FKey "orders.order_id") [] (rq_having q_request)).
    - intros f v cs E. injection E as <-. discriminate.
    - intros t [<-|[]] H. inversion H.
    - vm_compute. reflexivity. }
  split. { intros id xs ys F. destruct F as [|x y xs ys A F]; [exact I|]. destruct F as [|x' y' xs ys B F]; [destruct x, y; simpl in *; tauto|].
    destruct F; [|destruct x, y, x', y'; simpl in *; tauto]. destruct x, y; simpl in *; try tauto. destruct x', y'; simpl in *; try tauto. rewrite A, B. reflexivity. }
  split. { intros c x y E. destruct c; [reflexivity|]. destruct x as [x|], y as [y|]; simpl in E |- *; try tauto; try reflexivity.
    f_equal. f_equal. destruct (Qle_bool x q) eqn:A; destruct (Qle_bool y q) eqn:B; auto.
    - apply Qle_bool_iff in A. rewrite E in A. apply Qle_bool_iff in A. congruence.
    - apply Qle_bool_iff in B. rewrite <- E in B. apply Qle_bool_iff in B. congruence. }
  split. { intros v. unfold q_tab. destruct (String.eqb v "orders"); [|destruct (String.eqb v "customers")]; repeat constructor; simpl; intuition discriminate. }
  split. { intros j [<-|[]]. simpl. intros u r1 r2 Iu I1 I2 O1 O2. cbn [q_on] in *.
    destruct u as [|[|[|[|[|u]]]]]; simpl in O1, O2; try discriminate; apply Nat.eqb_eq in O1, O2; congruence. }
  split. { cbn. split; [discriminate|exact I]. }
  split. { intros v. unfold q_pk. destruct (String.eqb v "orders") eqn:E1; [apply String.eqb_eq in E1; subst; auto|].
    destruct (String.eqb v "customers") eqn:E2; [apply String.eqb_eq in E2; subst; auto|auto]. }
  split; [discriminate|].
  split. { intros v r1 r2 a I1 I2 A B. unfold q_tab in *. destruct (String.eqb v "orders"); [|destruct (String.eqb v "customers")]; simpl in I1, I2;
    repeat match goal with H : _ \/ _ |- _ => destruct H | H : False |- _ => destruct H end; subst; auto; cbv in A, B; congruence. }
  split.
  { intros rows k n h t b P I M. destruct (MD n h t b M I) as [-> [-> C]]. clear MD M I.
    assert (Ek : k = [Some "north"]).
    { destruct P as [[Z _]|[_ [c [Ic ->]]]]; [discriminate|]. vm_compute in Ic. destruct Ic as [<-|[<-|[]]]; reflexivity. }
    subst k. split; [discriminate|]. split; [discriminate|]. destruct C as [[E1 E2]|[E1 E2]]; rewrite E1, E2; [left; reflexivity|right].
    split; [reflexivity|]. split; [discriminate|]. split; [discriminate|].
    match goal with |- context [own_vals ?o] => let v := eval vm_compute in o in change o with v end.
    split; [discriminate|]. split.
    - intros d. split; intros k v k' v' I1 I2; destruct I1 as [I1|[]]; destruct I2 as [I2|[]]; congruence.
    - split; [|discriminate]. intros k0 q0 [I0|[]]. injection I0 as <- <-. exists 10000000%Z. reflexivity. }
  split; [reflexivity|]. split; [reflexivity|].
  eexists. eexists. eexists. split; [vm_compute; reflexivity|]. repeat split; reflexivity.
Qed.

(** ** C57: whose access filters apply *)
Section Whose.
  Context {V C : Type}.
  Variable get_field : string -> res qfield.
  Variable w : warehouse.
  Variable pk : string -> option string.
  Variable g : graph.
  Variable comp : list (list string * string).
  Variable topo : list vpair -> option (list vpair).
  Variable sp : string -> string -> option (list string).
  Variable as_list : list string -> list string.
  Variable valid : qfield -> V -> res unit.
  Variable compare : qfield -> V -> res (list C).
  Variable fuel : nat.
  Variables access access' : string -> res (list (string * list C)).

  (** Only the filters of the views of the fields asked for matter *)
  Theorem C57_only_views_of_fields (r : request V C) : enumerates as_list ->
    (forall n v, asked r n -> mentions get_field n v -> access v = access' v) ->
    generate get_field w pk g comp topo sp as_list valid compare access fuel r = generate get_field w pk g comp topo sp as_list valid compare access' fuel r.
  Proof.
    intros EN AG. unfold generate. destruct (mapM get_field (lookup_names r)) as [fs|] eqn:F; [|reflexivity]. cbn [bind].
    destruct (unique_views get_field as_list fuel fs) as [views|] eqn:U; [|reflexivity]. cbn [bind].
    assert (E : get_access_filter get_field w pk access fuel views = get_access_filter get_field w pk access' fuel views).
    { unfold get_access_filter. f_equal.
      assert (M : forall v, In v views -> access v = access' v).
      { intros v Vv. unfold unique_views in U. apply bind_ok in U. destruct U as [vs [W' U]]. injection U as <-. apply (proj1 (proj2 (EN vs) v)) in Vv.
        apply (concatM_ok_In _ _ _ W') in Vv. destruct Vv as [h [zs [Hh [Z Vv]]]]. apply mapM_ok in F.
        destruct (Forall2_In_r _ _ _ F h Hh) as [m [Mi E]]. apply (AG m); [apply asked_lookup; auto|]. eapply required_mentions; eauto. }
      clear - M. induction views as [|v l IH]; [reflexivity|]. cbn [concatM]. rewrite (M v) by (left; auto). rewrite IH by (intros; apply M; right; auto). reflexivity. }
    rewrite E. reflexivity.
  Qed.
End Whose.
Print Assumptions C57_only_views_of_fields.

Section Restricted.
  Context {V C : Type}.
  Variable get_field : string -> res qfield.
  Variable w : warehouse.
  Variable pk : string -> option string.
  Variable g : graph.
  Variable comp : list (list string * string).
  Variable topo : list vpair -> option (list vpair).
  Variable sp : string -> string -> option (list string).
  Variable as_list : list string -> list string.
  Variable valid : qfield -> V -> res unit.
  Variable compare : qfield -> V -> res (list C).
  Variable access : string -> res (list (string * list C)).
  Variable fuel : nat.
  Variable tab : string -> list nat.
  Variable on : join -> nat -> nat -> bool.
  Variable dim : string -> crow -> option string.
  Variable dim_holds : C -> option string -> tv.

  (** Proved: every row that counts satisfies the filters of each joined view that a field asked for reads.  Missing:
      the same for the views joined only to connect those (and for the views of the fields of the filters). *)
  Theorem C57_rows_restricted_partial gvs (r : request V C) q keep :
    build gvs = Ok g -> no_self_reference gvs -> topological_contract topo -> shortest_path_contract g sp ->
    enumerates as_list -> compares compare -> filters_on_dimensions get_field access -> (exists n, asked r n) -> proper get_field r ->
    generate get_field w pk g comp topo sp as_list valid compare access fuel r = Ok q ->
    reads_as (row_truth dim dim_holds) (s_where q) keep ->
    exists final, joins_from g [s_base q] (s_joins q) final /\
      forall c v fs a cs x, In c (filter keep (from_rows tab on q)) -> In v final ->
        (exists n, asked r n /\ mentions get_field n v) ->
        access v = Ok fs -> In (a, cs) fs -> In x cs -> dim_holds x (dim_named dim get_field a c) = Some true.
  Proof.
    intros B NS TC SC EN CO FD NA PR GE RD.
    destruct (C56_from _ _ _ _ _ _ _ _ _ _ _ _ gvs r q B NS TC SC EN FD NA GE) as [final [JF _]]. exists final. split; auto.
    intros c v fs a cs x I Vf [n [A M]] Ac Ia X. apply filter_In in I. destruct I as [_ K].
    apply (C56_rows _ _ _ _ _ _ _ _ _ _ _ _ dim dim_holds r q keep GE PR EN CO FD RD) in K. destruct K as [K _]. eapply K; eauto.
  Qed.
End Restricted.
Print Assumptions C57_rows_restricted_partial.

(** Finding: customers by product are connected through orders.  The user may see the orders of the north only, and the
    filter is on orders; the query joins orders and counts the south as well. *)
Definition b_views : list gview :=
  [GView "orders" [simple_id "customer_id" TForeign; simple_id "product_id" TForeign];
   GView "customers" [simple_id "customer_id" TPrimary]; GView "products" [simple_id "product_id" TPrimary]].
Definition b_graph : graph := match build b_views with Ok g => g | Err _ => [] end.
Definition b_fields : list qfield :=
  [ QField "orders" "region" BDim "orders.region" [] "" "";
    QField "products" "name" BDim "products.name" [] "" "";
    QField "customers" "count" (BAgg TCountDistinct false) "customers.customer_id" [] "customers.customer_id" "" ].
Definition b_get (n : string) : res qfield := match find (fun f => String.eqb (qf_id f) n) b_fields with Some f => Ok f | None => Err AccessDenied end.
Definition b_access (v : string) : res (list (string * list cmp)) := Ok (if String.eqb v "orders" then [("orders.region", [CIs "north"])] else []).
Definition b_request : request cmp cmp := Request ["customers.count"] ["products.name"] [] [] [].
Theorem C57_connecting_view_unfiltered_refuted :
  exists (q : qsql cmp) (tab : string -> list nat) (on : join -> nat -> nat -> bool) (dim : string -> crow -> option string) keep c, generate b_get Snowflake q_pk b_graph (composite_keys b_views) nx_topo (nx_sp b_graph) (nodup string_dec) (fun _ _ => Ok tt) (fun _ v => Ok [v]) b_access 3 b_request = Ok q /\
    reads_as (row_truth dim q_dim_holds) (s_where q) keep /\
      In "orders" (s_base q :: map jn_view (s_joins q)) /\ In c (filter keep (from_rows tab on q)) /\ assoc "orders" c <> None /\
      b_access "orders" = Ok [("orders.region", [CIs "north"])] /\ dim_named dim b_get "orders.region" c = Some "south".
Proof.
  eexists. exists (fun _ => [0]), (fun _ _ _ => true), (fun id c => if String.eqb id "orders.region" then Some "south" else Some "x"), (fun _ => true).
  eexists. split; [vm_compute; reflexivity|]. split; [intros c; cbn; tauto|]. split; [left; reflexivity|]. split; [left; reflexivity|]. split; [discriminate|]. split; [reflexivity|]. reflexivity.
Qed.
Print Assumptions C57_connecting_view_unfiltered_refuted.
