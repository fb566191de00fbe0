(** C31: how a merged query is split into sub queries, for arbitrary projects and queries. *)
From Verif Require Import PyBase PyStr PySort PyReplace Merged_Model MergedDerive_Model MergedDerive_Proofs.
From Coq Require Import Lia.
Local Open Scope string_scope.
Local Open Scope list_scope.
Local Open Scope nat_scope.

(** ** Specification vocabulary *)
(** A metric the query has to compute: a requested metric (or a metric of the having clause) that is not
    a merged result, or a metric referenced by one that is. *)
Definition wanted (P : xproj) (ms hv : list string) (f : xfield) : Prop :=
  exists n g, In n (ms ++ hv) /\ xp_field P n = Ok g
    /\ ((x_merged g = false /\ f = g) \/ (x_merged g = true /\ In (Some f) (xp_refs P g))).
Definition known (P : xproj) (g : xfield) : Prop :=
  (exists n, xp_field P n = Ok g) \/ exists m, In (Some g) (xp_refs P m).
(** Ids identify fields. *)
Definition faithful (P : xproj) : Prop := forall g1 g2, known P g1 -> known P g2 -> x_id g1 = x_id g2 -> g1 = g2.
(** Every metric with the sub query it is computed in *)
Definition computed (D : derived) : list (string * xfield) :=
  flat_map (fun kv => map (fun f => (fst kv, f)) (snd kv)) (dv_metrics D).
(** The sub query of a metric: its canonical date and the join graphs of that date *)
Definition sub_query_of (P : xproj) (f : xfield) (k : string) : Prop :=
  exists d g, x_canon f = Some d /\ xp_by_name P d = Ok g /\ k = cte_name d (join_with "_" (base_graphs g)).
(** Join graphs are named subquery_0, subquery_1, ... (join_graph.py:71-83). *)
Definition ordinary_graphs (f : xfield) : Prop := exists ns, ns <> [] /\ base_graphs f = map sub_name ns.

Section C31.
  Variable repr : list wcond -> string.

  Lemma in_computed (d : fdict) k f : NoDup (map fst d) ->
    (In (k, f) (flat_map (fun kv => map (fun f => (fst kv, f)) (snd kv)) d) <-> In f (get_list k d)).
  Proof.
    intros N. rewrite in_flat_map. split.
    - intros ([q l] & I & J). simpl in J. apply in_map_iff in J. destruct J as (f' & E & J). injection E as -> ->.
      rewrite (get_list_assoc k d l N I). exact J.
    - intros I. unfold get_list in I. destruct (assoc k d) as [l|] eqn:A; [|destruct I].
      exists (k, l). split; [apply assoc_In; exact A|]. simpl. apply in_map. exact I.
  Qed.
  Lemma nodup_computed (d : fdict) : NoDup (map fst d) -> (forall k, NoDup (map x_id (get_list k d))) ->
    NoDup (flat_map (fun kv => map (fun f => (fst kv, f)) (snd kv)) d).
  Proof.
    induction d as [|[q l] d IH]; intros N M; simpl; [constructor|]. simpl in N. inversion N as [|? ? N1 N2]; subst.
    assert (Ml : NoDup l).
    { specialize (M q). unfold get_list in M. simpl in M. rewrite String.eqb_refl in M. apply NoDup_map_inv in M. exact M. }
    assert (NM : NoDup (flat_map (fun kv => map (fun f => (fst kv, f)) (snd kv)) d)).
    { apply IH; [exact N2|]. intros k. specialize (M k). unfold get_list in M. simpl in M.
      destruct (String.eqb k q) eqn:E; [|exact M]. apply String.eqb_eq in E. subst k.
      unfold get_list. rewrite (proj2 (assoc_None q d) N1). constructor. }
    clear IH M. induction l as [|x l IHl]; simpl; [exact NM|]. inversion Ml as [|? ? X1 X2]; subst.
    constructor; [|apply IHl; assumption].
    intros I. apply in_app_or in I. destruct I as [I|I].
    - apply in_map_iff in I. destruct I as (y & E & I). injection E as ->. contradiction.
    - apply in_flat_map in I. destruct I as ([q' l'] & I & J). simpl in J. apply in_map_iff in J.
      destruct J as (y & E & _). injection E as -> ->. apply N1. apply (in_map fst) in I. exact I.
  Qed.
  Lemma single_filter {A} (p : A -> bool) l x : NoDup l -> In x l -> p x = true ->
    (forall y, In y l -> p y = true -> y = x) -> filter p l = [x].
  Proof.
    intros N I Px U. induction N as [|y l N1 N2 IH]; [destruct I|]. simpl. destruct I as [->|I].
    - rewrite Px. f_equal. apply filter_nil. intros y J. destruct (p y) eqn:E; [|reflexivity].
      rewrite (U y (or_intror J) E) in J. contradiction.
    - destruct (p y) eqn:E.
      + rewrite (U y (or_introl eq_refl) E) in N1. contradiction.
      + apply IH; [exact I|]. intros z J. apply U. right. exact J.
  Qed.

  Lemma wanted_groups P ms hv mfs hfs merged secondary :
    faithful P ->
    mapM (xp_field P) ms = Ok mfs -> mapM (xp_field P) hv = Ok hfs ->
    (merged, secondary) =
      add_having (map x_id (filter (fun f => negb (x_merged f)) mfs)) (map x_id (filter x_merged mfs)) hfs
                 (filter x_merged mfs, filter (fun f => negb (x_merged f)) mfs) ->
    forall f, wanted P ms hv f <-> In (Some f) (flat_map (xp_refs P) merged) \/ In f secondary.
  Proof.
    intros F Em Eh Ea f.
    assert (Gm : forall g, In g mfs <-> exists n, In n ms /\ xp_field P n = Ok g).
    { intros g. apply mapM_ok in Em. clear - Em. induction Em as [|n x ns xs E Em IH]; simpl; [split; [intros []|intros (n & [] & _)]|].
      rewrite IH. split.
      - intros [<-|(m & I & J)]; [exists n; auto|exists m; auto].
      - intros (m & [<-|I] & J); [left; congruence|right; exists m; auto]. }
    assert (Gh : forall g, In g hfs <-> exists n, In n hv /\ xp_field P n = Ok g).
    { intros g. apply mapM_ok in Eh. clear - Eh. induction Eh as [|n x ns xs E Em IH]; simpl; [split; [intros []|intros (n & [] & _)]|].
      rewrite IH. split.
      - intros [<-|(m & I & J)]; [exists n; auto|exists m; auto].
      - intros (m & [<-|I] & J); [left; congruence|right; exists m; auto]. }
    destruct (add_having_spec (map x_id (filter (fun f => negb (x_merged f)) mfs)) (map x_id (filter x_merged mfs)) hfs
                 (filter x_merged mfs, filter (fun f => negb (x_merged f)) mfs)) as [A B].
    rewrite <- Ea in A, B. simpl in A, B.
    assert (KM : forall g, In g mfs -> known P g).
    { intros g I. apply Gm in I. destruct I as (n & _ & E). left. exists n. exact E. }
    assert (KH : forall g, In g hfs -> known P g).
    { intros g I. apply Gh in I. destruct I as (n & _ & E). left. exists n. exact E. }
    assert (AM : forall g, In g merged <-> (In g mfs \/ In g hfs) /\ x_merged g = true).
    { intros g. rewrite A, filter_In. split; [tauto|]. intros [[I|I] M]; [tauto|].
      destruct (mem (x_id g) (map x_id (filter x_merged mfs))) eqn:E.
      - apply mem_In, in_map_iff in E. destruct E as (g' & E & I'). pose proof I' as J. apply filter_In in J.
        left. rewrite <- (F g' g); [tauto|apply KM; tauto|apply KH; exact I|exact E].
      - apply mem_false in E. right. tauto. }
    assert (BM : forall g, In g secondary <-> (In g mfs \/ In g hfs) /\ x_merged g = false).
    { intros g. rewrite B, filter_In, negb_true_iff. split; [tauto|]. intros [[I|I] M]; [tauto|].
      destruct (mem (x_id g) (map x_id (filter (fun f => negb (x_merged f)) mfs))) eqn:E.
      - apply mem_In, in_map_iff in E. destruct E as (g' & E & I'). pose proof I' as J. apply filter_In in J.
        rewrite negb_true_iff in J.
        left. rewrite <- (F g' g); [tauto|apply KM; tauto|apply KH; exact I|exact E].
      - apply mem_false in E. right. tauto. }
    rewrite in_flat_map, BM. unfold wanted. split.
    - intros (n & g & I & E & [[M ->]|[M J]]); apply in_app_or in I.
      + right. split; [|exact M]. rewrite Gm, Gh. destruct I as [I|I]; [left|right]; exists n; auto.
      + left. exists g. split; [|exact J]. apply AM. split; [|exact M]. rewrite Gm, Gh.
        destruct I as [I|I]; [left|right]; exists n; auto.
    - intros [(g & I & J)|[I M]].
      + apply AM in I. destruct I as [I M]. rewrite Gm, Gh in I.
        destruct I as [(n & I & E)|(n & I & E)]; exists n, g; (split; [apply in_or_app; auto|]); auto.
      + rewrite Gm, Gh in I.
        destruct I as [(n & I & E)|(n & I & E)]; exists n, f; (split; [apply in_or_app; auto|]); auto.
  Qed.

  (** In a query that spans at least two canonical dates, every metric the query needs is computed in
      exactly one sub query, that of its own canonical date; nothing else is computed. *)
  Theorem C31_metrics_once P ms hv dn ws D :
    derive repr P ms hv dn ws = Ok D ->
    faithful P ->
    (forall f, wanted P ms hv f -> x_measure f = true) ->
    (forall f d g, wanted P ms hv f -> x_canon f = Some d -> xp_by_name P d = Ok g -> x_measure g = false) ->
    (forall n f, In n dn -> xp_field P n = Ok f -> x_measure f = false /\ ordinary_graphs f) ->
    (exists f1 f2, wanted P ms hv f1 /\ wanted P ms hv f2 /\ x_canon f1 <> x_canon f2) ->
    (forall f, wanted P ms hv f -> exists k, sub_query_of P f k
        /\ filter (fun kf => String.eqb (x_id (snd kf)) (x_id f)) (computed D) = [(k, f)])
    /\ forall k f, In (k, f) (computed D) -> wanted P ms hv f.
  Proof.
    intros H F HM HC HD (f1 & f2 & W1 & W2 & Dif).
    destruct (derive_inv _ _ _ _ _ _ _ H) as
      (mfs & hfs & dfs & merged & secondary & qm & dm0 & st & ds & Em & Eh & Ed & Ea & Eq & Ec & _ & Ef & Dm & _).
    pose proof (wanted_groups P ms hv mfs hfs merged secondary F Em Eh Ea) as WG.
    destruct (metric_groups_spec _ _ _ _ Eq) as (N0 & G1 & G2 & G3 & _).
    destruct (canon_mapping_spec _ _ _ _ _ _ _ _ Ec) as (CD & CU & _).
    destruct (dims_metrics _ _ _ _ _ _ Ef) as [ND GL]. simpl in ND, GL. specialize (ND N0).
    (* known fields *)
    assert (KW : forall f, wanted P ms hv f -> known P f).
    { intros f (n & g & _ & E & [[_ ->]|[_ J]]); [left; eauto|right; eauto]. }
    assert (HID : forall f k, home P f k -> has_id k (x_id f) qm -> wanted P ms hv f -> In f (get_list k qm)).
    { intros f k _ (g & I & E) W. rewrite <- (F g f); auto. apply KW. apply WG. apply (G1 k g I). }
    assert (HOME : forall f, wanted P ms hv f -> exists k, home P f k /\ In f (get_list k qm)).
    { intros f W. destruct (G2 f (proj1 (WG f) W)) as (k & Hk & Hid). exists k. split; [exact Hk|]. auto. }
    (* the canonical date of a wanted metric and its key *)
    assert (DK : forall f k, wanted P ms hv f -> home P f k ->
              exists d g, x_canon f = Some d /\ xp_by_name P d = Ok g /\ k = cte_name d (join_with "_" (base_graphs g))
                          /\ date_key P d k).
    { intros f k W (d & h & C & J & ->). unfold join_hash_key in J. rewrite (HM f W), C in J.
      apply bind_ok in J. destruct J as (g & E & J). injection J as <-. exists d, g.
      split; [exact C|]. split; [exact E|]. split; [reflexivity|]. exists g, (join_with "_" (base_graphs g)).
      split; [exact E|]. split; [|reflexivity]. unfold join_hash_key. rewrite (HC f d g W C E). reflexivity. }
    assert (USED : forall f k, wanted P ms hv f -> home P f k -> In k (dv_used D)).
    { intros f k W Hk. destruct (DK f k W Hk) as (d & g & C & _ & _ & K). apply CU.
      assert (ID : forall f', wanted P ms hv f' -> exists d', x_canon f' = Some d' /\ In d' (dv_dates D)).
      { intros f' W'. destruct (HOME f' W') as (k' & (d' & h' & C' & _) & I'). exists d'. split; [exact C'|].
        apply (CD f' d' k' I'); auto. }
      destruct (ID f W) as (d0 & C0 & I0). assert (d0 = d) by congruence. subst d0.
      destruct (ID f1 W1) as (d1 & C1 & I1). destruct (ID f2 W2) as (d2 & C2 & I2).
      destruct (String.eqb d1 d) eqn:Q.
      - apply String.eqb_eq in Q. subst d1. exists d2, d. repeat split; auto. intros ->. apply Dif. congruence.
      - apply String.eqb_neq in Q. exists d1, d. auto. }
    assert (KEEP : forall f k, wanted P ms hv f -> home P f k -> get_list k (ds_metrics ds) = get_list k qm).
    { intros f k W Hk. destruct (GL k) as [E|(_ & f' & If & (_ & X & d' & h' & C' & J' & K'))]; [exact E|].
      exfalso. assert (T : existsb (fun h => hash_contains h (x_graphs f')) (dv_used D) = true).
      { apply existsb_exists. exists k. split; [apply (USED f k W Hk)|].
        assert (exists n, In n dn /\ xp_field P n = Ok f') as (n & In' & En).
        { apply mapM_ok in Ed. clear - Ed If. induction Ed as [|n x ns xs E Ed IH]; [destruct If|].
          destruct If as [->|If]; [exists n; simpl; auto|]. destruct (IH If) as (m & I & J). exists m. simpl; auto. }
        destruct (HD n f' In' En) as (M' & ns & NE & BG).
        unfold join_hash_key in J'. rewrite M' in J'. injection J' as <-. rewrite K', BG. unfold cte_name.
        destruct ns as [|n0 ns]; [congruence|]. rewrite <- append_assoc.
        apply (hash_contains_own _ (n0 :: ns) n0); [left; reflexivity|].
        assert (I0 : In (sub_name n0) (base_graphs f')) by (rewrite BG; left; reflexivity).
        unfold base_graphs in I0. apply filter_In in I0. tauto. }
      congruence. }
    assert (SUB : forall k f, In f (get_list k (ds_metrics ds)) -> In f (get_list k qm)).
    { intros k f I. destruct (GL k) as [E|(E & _)]; rewrite E in I; [exact I|destruct I]. }
    assert (CW : forall k f, In (k, f) (computed D) -> wanted P ms hv f /\ home P f k).
    { intros k f I. unfold computed in I. rewrite Dm in I. apply (in_computed _ _ _ ND) in I. apply SUB in I.
      destruct (G1 k f I) as [Hk S]. split; [apply WG; exact S|exact Hk]. }
    split; [|intros k f I; apply (CW k f I)].
    intros f W. destruct (HOME f W) as (k & Hk & Ik). exists k. split.
    { destruct (DK f k W Hk) as (d & g & C & E & K & _). exists d, g. auto. }
    apply single_filter.
    - unfold computed. rewrite Dm. apply nodup_computed; [exact ND|]. intros k'.
      destruct (GL k') as [E|(E & _)]; rewrite E; [apply G3|constructor].
    - unfold computed. rewrite Dm. apply (in_computed _ _ _ ND). rewrite (KEEP f k W Hk). exact Ik.
    - simpl. apply String.eqb_refl.
    - intros [k' g] I E. simpl in E. apply String.eqb_eq in E. destruct (CW k' g I) as [Wg Hg].
      assert (g = f) by (apply F; auto). subst g. f_equal. apply (home_unique P f); assumption.
  Qed.

  (** ** Dimensions *)
  (** If every dimension has one counterpart [cp h f] in every sub query [h] (see [counterpart]: the date
      of the sub query, the field itself when its join graphs are part of the sub query, or the mapped
      field otherwise), every sub query selects the counterparts in the order of the query's dimensions. *)
  Theorem C31_positions_partial P ms hv dn ws D dfs cp :
    derive repr P ms hv dn ws = Ok D ->
    mapM (xp_field P) dn = Ok dfs ->
    (forall f, In f dfs -> counterpart P (dv_dates D) (dv_used D) (dv_metrics D) (dv_map D) cp f) ->
    forall h, In h (dv_used D) -> NoDup (map (fun f => x_id (cp h f)) dfs) ->
    get_list h (dv_dims D) = map (cp h) dfs.
  Proof.
    intros H Ed C h Ih N.
    destruct (derive_inv _ _ _ _ _ _ _ H) as
      (mfs & hfs & dfs' & merged & secondary & qm & dm0 & st & ds & _ & _ & Ed' & _ & _ & Ec & _ & Ef & Dm & Dd & Dp & _).
    rewrite Ed in Ed'. injection Ed' as <-.
    assert (NU : NoDup (dv_used D)).
    { unfold canon_mapping in Ec. apply bind_ok in Ec. destruct Ec as (rd & _ & Ec).
      apply bind_ok in Ec. destruct Ec as (es & _ & Ec). injection Ec as _ _ <-.
      eapply Permutation.Permutation_NoDup; [apply Permutation.Permutation_sym, isort_perm|].
      unfold dedup, dedup_by. pose proof (dedup_by_aux_NoDup (fun x : string => x) [] (map (fun e => mi_from (snd e)) es)) as X.
      rewrite map_id in X. exact X. }
    (* the final mapping is the initial one, up to empty entries *)
    assert (DMg : forall k, get_list k (ds_map ds) = get_list k (ms_dims st)).
    { intros k. apply (foldM_inv (dim_iter P (dv_dates D) (dv_used D))
        (fun s => get_list k (ds_map s) = get_list k (ms_dims st)) dfs _ _ Ef); [reflexivity|].
      intros f b1 b2 _ E X. rewrite (dim_iter_map _ _ _ _ _ _ X). exact E. }
    assert (QM : ds_metrics ds = qm).
    { (* no dimension is alone *)
      apply (foldM_inv (dim_iter P (dv_dates D) (dv_used D)) (fun s => ds_metrics s = qm) dfs _ _ Ef); [reflexivity|].
      intros f b1 b2 If E X. destruct (dim_iter_metrics _ _ _ _ _ _ X) as [->|(k & (M & NX & _) & _)]; [exact E|].
      exfalso. apply mem_false in M. destruct (C f If) as [_ C2]. destruct (C2 M) as [(h1 & I1 & K1) _].
      assert (T : existsb (fun h => hash_contains h (x_graphs f)) (dv_used D) = true)
        by (apply existsb_exists; exists h1; auto). congruence. }
    destruct (dims_positions P (dv_dates D) (dv_used D) (dv_metrics D) (dv_map D) cp dfs NU C
                (DS qm [] (ms_dims st)) ds) as [_ L].
    - simpl. rewrite Dm. symmetry. exact QM.
    - intros k. simpl. rewrite Dp. symmetry. apply DMg.
    - exact Ef.
    - destruct (L h Ih) as (ls & G & FP). simpl in G. rewrite Dd, get_list_dedup, G.
      apply (dedup_parts cp h dfs ls FP N). intros f _ [].
  Qed.

  (** ** Where *)
  (** [moved P D h w w']: [w'] is the condition [w] with the same operators and values, where every field is
      either unchanged or replaced by a field that the dimension mapping gives for it in sub query [h]. *)
  Inductive moved (P : xproj) (D : derived) (h : string) : wcond -> wcond -> Prop :=
  | MV_same n rest : moved P D h (WLeaf n rest) (WLeaf n rest)
  | MV_mapped n rest f e g : xp_field P n = Ok f -> In e (get_list (field_key f) (dv_map D)) -> mi_from e = h ->
      xp_field P (match x_group f with Some t => (mi_field e ++ "_" ++ t)%string | None => mi_field e end) = Ok g ->
      moved P D h (WLeaf n rest) (WLeaf (x_id g) rest)
  | MV_group rest l l' : Forall2 (moved P D h) l l' -> moved P D h (WGroup rest l) (WGroup rest l').

  Lemma resolve_moved P D h w : forall w', resolve_cond P (dv_metrics D) (dv_map D) h w = Ok w' -> moved P D h w w'.
  Proof.
    induction w as [n r|r ws IH] using wcond_ind'; intros w' H; cbn [resolve_cond] in H.
    - apply bind_ok in H. destruct H as (n' & E & H). injection H as <-. unfold where_field in E.
      apply bind_ok in E. destruct E as (f & Ef & E). apply bind_ok in E. destruct E as (hash & _ & E).
      destruct (_ || _); [injection E as <-; constructor|].
      destruct (find _ _) as [e|] eqn:Fd; [|injection E as <-; constructor].
      apply find_some in Fd. destruct Fd as [Ie Qe]. apply String.eqb_eq in Qe.
      apply bind_ok in E. destruct E as (g & Eg & E). injection E as <-.
      eapply MV_mapped; eauto.
    - apply bind_ok in H. destruct H as (ws' & E & H). injection H as <-. constructor.
      revert ws' E. induction IH as [|x ws Hx HF IH]; intros ws' E.
      + injection E as <-. constructor.
      + apply bind_ok in E. destruct E as (x' & E1 & E). apply bind_ok in E. destruct E as (r' & E2 & E).
        injection E as <-. constructor; [apply Hx; exact E1|apply IH; exact E2].
  Qed.

  (** Every sub query gets every where condition, on its own fields, and no other condition.  Conditions
      are only identified when their texts agree ([cond_strings]). *)
  Theorem C31_where_everywhere P ms hv dn ws D :
    derive repr P ms hv dn ws = Ok D ->
    forall h, In h (map fst (dv_metrics D)) \/ In h (map fst (dv_dims D)) ->
    exists conds, In (h, conds) (dv_where D)
      /\ (forall w, In w ws -> exists w' v, moved P D h w w' /\ In v conds /\ cond_strings repr w' = cond_strings repr v)
      /\ (forall v, In v conds -> exists w, In w ws /\ moved P D h w v).
  Proof.
    intros H h Ih. destruct (derive_inv _ _ _ _ _ _ _ H) as
      (mfs & hfs & dfs & merged & secondary & qm & dm0 & st & ds & _ & _ & _ & _ & _ & _ & _ & _ & _ & _ & _ & _ & _ & W).
    assert (I : In h (dedup (map fst (dv_metrics D) ++ map fst (dv_dims D)))).
    { apply dedup_In. apply in_or_app. exact Ih. }
    apply mapM_ok in W. clear Ih.
    assert (exists x, mapM (resolve_cond P (dv_metrics D) (dv_map D) h) ws = Ok x /\ In (h, clean_where repr x) (dv_where D))
      as (x & X & J).
    { revert I W. generalize (dedup (map fst (dv_metrics D) ++ map fst (dv_dims D))) as ks. generalize (dv_where D) as ys.
      intros ys ks I W. induction W as [|k y ks ys E W IH]; [destruct I|]. destruct I as [->|I].
      - apply bind_ok in E. destruct E as (x & E1 & E2). injection E2 as <-. exists x. split; [exact E1|left; reflexivity].
      - destruct (IH I) as (x & A & B). exists x. split; [exact A|right; exact B]. }
    exists (clean_where repr x). split; [exact J|]. apply mapM_ok in X. split.
    - intros w Iw. assert (exists w', In w' x /\ moved P D h w w') as (w' & I' & M).
      { clear - Iw X. induction X as [|a b l l' E X IH]; [destruct Iw|]. destruct Iw as [->|Iw].
        - exists b. split; [left; reflexivity|]. apply resolve_moved. exact E.
        - destruct (IH Iw) as (w' & A & B). exists w'. split; [right; exact A|exact B]. }
      destruct (dedup_conds_reach repr x x (fun y Iy => Iy) [] w' I') as [E|(v & V1 & V2)]; [discriminate E|].
      exists w', v. split; [exact M|]. split; [exact V1|]. apply sh_eq. exact V2.
    - intros v Iv. apply (dedup_conds_from repr x x (fun y Iy => Iy) []) in Iv.
      clear - Iv X. induction X as [|a b l l' E X IH]; [destruct Iv|]. destruct Iv as [->|Iv].
      + exists a. split; [left; reflexivity|]. apply resolve_moved. exact E.
      + destruct (IH Iv) as (w & A & B). exists w. split; [right; exact A|exact B].
  Qed.
End C31.

(** A condition on a field that belongs to exactly one join graph, which is part of the sub query, and that
    is not a canonical date, is kept on that field. *)
Theorem C31_where_kept P qm dm d ns n name f :
  xp_field P name = Ok f -> x_measure f = false -> base_graphs f = [sub_name n] -> In n ns ->
  (forall k g c, In (k, g) (flat_map (fun kv => map (fun f => (fst kv, f)) (snd kv)) qm) -> x_canon g = Some c -> c <> field_key f) ->
  where_field P qm dm (cte_name d (join_with "_" (map sub_name ns))) name = Ok name.
Proof.
  intros E M B I C. unfold where_field. rewrite E. cbn [bind]. unfold join_hash_key. rewrite M, B. cbn [bind].
  change (join_with "_" [sub_name n]) with (sub_name n).
  rewrite (joinable_own d ns n I).
  replace (existsb _ _) with false; [reflexivity|]. symmetry.
  apply (proj1 (not_true_iff_false _)). intros X. apply existsb_exists in X. destruct X as (o & Io & Q).
  apply in_flat_map in Io. destruct Io as ([k l] & Ik & Io). simpl in Io. apply in_map_iff in Io.
  destruct Io as (g & <- & Ig). destruct (x_canon g) as [c|] eqn:Cg; [|discriminate Q].
  simpl in Q. apply String.eqb_eq in Q. apply (C k g c); [|exact Cg|symmetry; exact Q].
  apply in_flat_map. exists (k, l). split; [exact Ik|]. simpl. apply in_map. exact Ig.
Qed.
(** A condition on the canonical date of a sub query is kept on that date. *)
Theorem C31_where_own_date P qm dm name f k g d :
  xp_field P name = Ok f -> x_measure f = false ->
  has_char "."%char (x_view f) = false -> has_char "."%char (x_name f) = false ->
  In (k, g) (flat_map (fun kv => map (fun f => (fst kv, f)) (snd kv)) qm) -> x_canon g = Some d -> d = field_key f ->
  where_field P qm dm (cte_name d (join_with "_" (base_graphs f))) name = Ok name.
Proof.
  intros E M Dv Dn I C ->. unfold where_field. rewrite E. cbn [bind]. unfold join_hash_key. rewrite M. cbn [bind].
  replace (existsb _ _) with true.
  - simpl negb. cbn [andb orb].
    assert (U : undot (field_key f) = (x_view f ++ "_" ++ x_name f)%string).
    { unfold undot, field_key. rewrite (replace_skip_prefix "." "" "_" _ _ Dv). f_equal.
      rewrite (replace_head "." "_" (x_name f)) by discriminate. f_equal.
      rewrite <- (append_nil_r (x_name f)) at 1. rewrite (replace_skip_prefix "." "" "_" _ _ Dn).
      simpl. rewrite append_nil_r. reflexivity. }
    unfold cte_name. rewrite U. rewrite !append_assoc.
    rewrite <- (append_nil_r (x_view f ++ "_" ++ x_name f ++ "__" ++ join_with "_" (base_graphs f))) at 2.
    rewrite contains_prefix. reflexivity.
  - symmetry. apply existsb_exists. exists (x_canon g). split.
    + apply in_flat_map in I. destruct I as ([q l] & Iq & J). simpl in J. apply in_map_iff in J.
      destruct J as (g' & X & J). injection X as -> ->. apply in_flat_map. exists (k, l). split; [exact Iq|].
      simpl. apply in_map. exact J.
    + rewrite C. simpl. apply String.eqb_refl.
Qed.

(** ** Concrete projects *)
Definition table_proj (byn : list (string * xfield)) (refs : xfield -> list (option xfield)) (t : list xfield)
  (maps : list (string * mmap)) : xproj :=
  let get d n := match assoc n d with Some f => Ok f | None => Err QueryError end in
  XP (get (map (fun f => (x_id f, f)) t)) (get byn) refs maps.
Definition o_rev := XF "orders.revenue" "orders" "revenue" true None (Some "orders.order") ["subquery_0"] false.
Definition o_day := XF "orders.order_date" "orders" "order" false (Some "date") (Some "orders.order") ["subquery_0"] false.
Definition o_reg := XF "orders.region" "orders" "region" false None (Some "orders.order") ["subquery_0"] false.
Definition e_cnt := XF "events.cnt" "events" "cnt" true None (Some "events.event") ["subquery_1"] false.
Definition e_day := XF "events.event_date" "events" "event" false (Some "date") (Some "events.event") ["subquery_1"] false.
Definition e_reg := XF "events.region" "events" "region" false None (Some "events.event") ["subquery_1"] false.
Definition ratio := XF "orders.ratio" "orders" "ratio" true None None [] true.
Definition names := [("orders.order", o_day); ("events.event", e_day)].
Definition reg_maps :=
  [("orders.region", MM "subquery_0" [MR "events.region" "subquery_1"]);
   ("events.region", MM "subquery_1" [MR "orders.region" "subquery_0"])].
Definition ratio_refs (f : xfield) : list (option xfield) :=
  if String.eqb (x_id f) "orders.ratio" then [Some o_rev; Some e_cnt] else [].
Definition fields7 := [o_rev; o_day; o_reg; e_cnt; e_day; e_reg; ratio].
Definition shop : xproj := table_proj names ratio_refs fields7 reg_maps.
Definition norepr (_ : list wcond) : string := "".
Definition eq_cond (n v : string) : wcond := WLeaf n [("expression", PV "str" "equal_to"); ("value", PV "str" v)].

Definition k_o := "orders_order__subquery_0".
Definition k_e := "events_event__subquery_1".
(** The ratio is split into both sub queries; the day and the region are selected at the same positions
    and the condition is put on the region of each. *)
Example split_example : exists D,
  derive norepr shop ["orders.ratio"; "orders.revenue"] [] ["orders.order_date"; "orders.region"]
         [eq_cond "orders.region" "EU"] = Ok D
  /\ dv_metrics D = [(k_o, [o_rev]); (k_e, [e_cnt])]
  /\ dv_dims D = [(k_o, [o_day; o_reg]); (k_e, [e_day; e_reg])]
  /\ dv_where D = [(k_o, [eq_cond "orders.region" "EU"]); (k_e, [eq_cond "events.region" "EU"])].
Proof. eexists. vm_compute. repeat split; reflexivity. Qed.

Lemma shop_known g : known shop g -> In g fields7.
Proof.
  intros [(n & E)|(m & I)].
  - change (match assoc n (map (fun f => (x_id f, f)) fields7) with Some f => Ok f | None => Err QueryError end = Ok g) in E.
    destruct (assoc n (map (fun f => (x_id f, f)) fields7)) as [f|] eqn:A; [|discriminate].
    injection E as <-. apply assoc_In in A. apply in_map_iff in A. destruct A as (f' & Q & I). injection Q as _ ->. exact I.
  - simpl in I. unfold ratio_refs in I. destruct (String.eqb (x_id m) "orders.ratio"); [|destruct I].
    destruct I as [Q|[Q|[]]]; injection Q as <-; simpl; tauto.
Qed.
Lemma shop_faithful : faithful shop.
Proof.
  intros g1 g2 K1 K2 E. apply shop_known in K1, K2. simpl in K1, K2.
  repeat destruct K1 as [<-|K1]; repeat destruct K2 as [<-|K2]; try contradiction; try reflexivity; discriminate E.
Qed.
Lemma shop_wanted f : wanted shop ["orders.ratio"; "orders.revenue"] [] f <-> f = o_rev \/ f = e_cnt.
Proof.
  split.
  - intros (n & g & I & E & H). destruct I as [<-|[<-|[]]]; vm_compute in E; injection E as <-;
      destruct H as [[A B]|[A B]]; try discriminate A; [|left; exact B].
    simpl in B. destruct B as [B|[B|[]]]; injection B as <-; auto.
  - intros [->| ->]; exists "orders.ratio", ratio; (split; [left; reflexivity|]); (split; [reflexivity|]); right;
      (split; [reflexivity|]); simpl; tauto.
Qed.
(** The hypotheses of [C31_metrics_once] hold of this project and query. *)
Example metrics_once_hypotheses :
  faithful shop
  /\ (forall f, wanted shop ["orders.ratio"; "orders.revenue"] [] f -> x_measure f = true)
  /\ (forall f d g, wanted shop ["orders.ratio"; "orders.revenue"] [] f -> x_canon f = Some d ->
        xp_by_name shop d = Ok g -> x_measure g = false)
  /\ (forall n f, In n ["orders.order_date"; "orders.region"] -> xp_field shop n = Ok f ->
        x_measure f = false /\ ordinary_graphs f)
  /\ (exists f1 f2, wanted shop ["orders.ratio"; "orders.revenue"] [] f1
                    /\ wanted shop ["orders.ratio"; "orders.revenue"] [] f2 /\ x_canon f1 <> x_canon f2).
Proof.
  split; [apply shop_faithful|]. split; [|split; [|split]].
  - intros f W. apply shop_wanted in W. destruct W as [->| ->]; reflexivity.
  - intros f d g W C E. apply shop_wanted in W. destruct W as [->| ->]; injection C as <-; vm_compute in E; injection E as <-; reflexivity.
  - intros n f [<-|[<-|[]]] E; vm_compute in E; injection E as <-; (split; [reflexivity|]); exists [0]; (split; [discriminate|reflexivity]).
  - exists o_rev, e_cnt. split; [apply shop_wanted; auto|]. split; [apply shop_wanted; auto|]. discriminate.
Qed.
(** The hypotheses of [C31_positions_partial] hold of it as well. *)
Definition shop_cp (h : string) (f : xfield) : xfield :=
  if String.eqb h k_o then f else if String.eqb (x_id f) "orders.order_date" then e_day else e_reg.
Example positions_hypotheses : exists D,
  derive norepr shop ["orders.ratio"; "orders.revenue"] [] ["orders.order_date"; "orders.region"] [] = Ok D
  /\ dv_used D = [k_o; k_e]
  /\ (forall f, In f [o_day; o_reg] ->
        counterpart shop (dv_dates D) (dv_used D) (dv_metrics D) (dv_map D) shop_cp f)
  /\ (forall h, In h (dv_used D) -> NoDup (map (fun f => x_id (shop_cp h f)) [o_day; o_reg])).
Proof.
  eexists. split; [vm_compute; reflexivity|]. cbn [dv_used dv_dates dv_metrics dv_map].
  split; [reflexivity|]. split.
  - intros f [<-|[<-|[]]]; split; intros X.
    + exists "subquery_0". split; [reflexivity|]. split; [reflexivity|]. split.
      * intros e [<-|[]]. reflexivity.
      * intros h [<-|[<-|[]]]; [left; reflexivity|right]. eexists. split; [left; reflexivity|reflexivity].
    + exfalso. apply X. vm_compute. tauto.
    + vm_compute in X. destruct X as [X|[X|[]]]; discriminate X.
    + split; [exists k_o; split; [left; reflexivity|reflexivity]|].
      intros h [<-|[<-|[]]]; [left; split; reflexivity|right]. split; [reflexivity|]. split.
      * intros e I _. vm_compute in I. repeat (destruct I as [<-|I]; [reflexivity|]). destruct I.
      * eexists. split; [vm_compute; left; reflexivity|]. right. exists "subquery_1". split; reflexivity.
  - intros h [<-|[<-|[]]]; vm_compute; (constructor; [intros [I|[]]; discriminate I|constructor; [intros []|constructor]]).
Qed.

(** ** What is false *)
(** With one canonical date no sub query is "used": the dimension is taken for one that joins to no metric
    and the metrics of its sub query are dropped (line 243). *)
Theorem C31_single_date_drops_metric_refuted : exists P ms dn D,
  derive norepr P ms [] dn [] = Ok D /\ (exists f, wanted P ms [] f) /\ computed D = [].
Proof.
  exists shop, ["orders.revenue"], ["orders.region"]. eexists. split; [vm_compute; reflexivity|]. split; [|reflexivity].
  exists o_rev, "orders.revenue", o_rev. split; [left; reflexivity|]. split; [reflexivity|]. left. split; reflexivity.
Qed.

(** Two conditions that differ in the type of their value (1 and "1") are taken for the same: the first is lost. *)
Theorem C31_where_type_lost_refuted : exists P ms ws D h conds,
  derive norepr P ms [] [] ws = Ok D /\ In (h, conds) (dv_where D)
  /\ (forall w w', In w ws -> moved P D h w w' -> w' = w) /\ exists w, In w ws /\ ~ In w conds.
Proof.
  exists shop, ["orders.ratio"],
    [WLeaf "orders.region" [("expression", PV "str" "equal_to"); ("value", PV "int" "1")];
     WLeaf "orders.region" [("expression", PV "str" "equal_to"); ("value", PV "str" "1")]].
  eexists. exists k_o. eexists. split; [vm_compute; reflexivity|].
  split; [cbn [dv_where]; left; reflexivity|]. split.
  - intros w w' I M. destruct I as [<-|[<-|[]]]; inversion M as [|? ? f e g F E K G|]; subst; [reflexivity| |reflexivity|];
      vm_compute in F; injection F as <-; cbn [dv_map] in E; vm_compute in E;
      repeat (destruct E as [<-|E]; [vm_compute in K; discriminate K|]); destruct E.
  - eexists. split; [left; reflexivity|]. intros [I|[]]; discriminate I.
Qed.

(** A field that joins to both sub queries is selected as it is in both, but a condition on it is put on a
    mapped field in the first: "subquery_0_subquery_1" is not among the sub queries of the CTE (lines 297-303). *)
Definition c_reg := XF "customers.region" "customers" "region" false None (Some "orders.order") ["subquery_0"; "subquery_1"] false.
Definition shop2 : xproj := table_proj names ratio_refs (fields7 ++ [c_reg])
  [("customers.region", MM "subquery_0_subquery_1" [MR "orders.region" "subquery_0"])].
Theorem C31_where_moved_although_joinable_refuted : exists D,
  derive norepr shop2 ["orders.ratio"] [] ["customers.region"] [eq_cond "customers.region" "EU"] = Ok D
  /\ get_list k_o (dv_dims D) = [c_reg]
  /\ assoc k_o (dv_where D) = Some [eq_cond "orders.region" "EU"].
Proof. eexists. vm_compute. repeat split; reflexivity. Qed.

(** Two dimensions mapped to the same field: one sub query has two dimensions, the other one. *)
Definition o_area := XF "orders.area" "orders" "area" false None (Some "orders.order") ["subquery_0"] false.
Definition shop3 : xproj := table_proj names ratio_refs (fields7 ++ [o_area])
  [("orders.region", MM "subquery_0" [MR "events.region" "subquery_1"]);
   ("orders.area", MM "subquery_0" [MR "events.region" "subquery_1"])].
Theorem C31_dimension_count_refuted : exists D,
  derive norepr shop3 ["orders.ratio"] [] ["orders.region"; "orders.area"] [] = Ok D
  /\ dv_dims D = [(k_o, [o_reg; o_area]); (k_e, [e_reg])].
Proof. eexists. vm_compute. repeat split; reflexivity. Qed.

(** "subquery_1" is part of the text "..._subquery_12": the sub query of join graph 12 selects a field of
    join graph 1 although a mapping to its own field exists (line 237). *)
Definition k_cnt := XF "calls.cnt" "calls" "cnt" true None (Some "calls.call") ["subquery_12"] false.
Definition k_day := XF "calls.call_date" "calls" "call" false (Some "date") (Some "calls.call") ["subquery_12"] false.
Definition k_reg := XF "calls.region" "calls" "region" false None (Some "calls.call") ["subquery_12"] false.
Definition shop4 : xproj := table_proj (("calls.call", k_day) :: names) ratio_refs (fields7 ++ [k_cnt; k_day; k_reg])
  [("orders.region", MM "subquery_0" [MR "events.region" "subquery_1"; MR "calls.region" "subquery_12"])].
Theorem C31_substring_mapping_refuted : exists D,
  derive norepr shop4 ["orders.revenue"; "calls.cnt"] [] ["orders.region"] [] = Ok D
  /\ get_list "calls_call__subquery_12" (dv_dims D) = [e_reg] /\ hash_contains "calls_call__subquery_12" (x_graphs e_reg) = false.
Proof. eexists. vm_compute. repeat split; reflexivity. Qed.

Print Assumptions C31_metrics_once.
Print Assumptions C31_positions_partial.
Print Assumptions C31_where_everywhere.
Print Assumptions C31_where_kept.
Print Assumptions C31_where_own_date.
Print Assumptions C31_single_date_drops_metric_refuted.
Print Assumptions C31_where_type_lost_refuted.
Print Assumptions C31_where_moved_although_joinable_refuted.
Print Assumptions C31_dimension_count_refuted.
Print Assumptions C31_substring_mapping_refuted.
