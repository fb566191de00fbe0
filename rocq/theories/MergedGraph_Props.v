(** C55: the join graphs of a field say which fields can be queried together. *)
From Coq Require Import List String Ascii Bool Arith Lia.
From Verif Require Mapping_Model.
From Verif Require Import PyBase PyStr PySort PyList JoinGraph_Model ModelMap_Model MergedGraph_Model MergedGraph_Spec.
Import ListNotations.
Local Open Scope string_scope.
Local Open Scope list_scope.

Lemma dedup_In l x : In x (dedup l) <-> In x l.
Proof.
  unfold dedup, dedup_by. pose proof (dedup_by_aux_keys (fun x : string => x) [] l x) as K. rewrite !map_id in K.
  rewrite K. cbn. tauto.
Qed.
Lemma dedup_NoDup l : NoDup (dedup l).
Proof. pose proof (dedup_by_aux_NoDup (fun x : string => x) [] l) as K. rewrite map_id in K. exact K. Qed.

Lemma combinations_In l a b :
  sorted String.leb l -> NoDup l -> (In (a, b) (combinations l) <-> In a l /\ In b l /\ String.compare a b = Lt).
Proof.
  intros S. induction S as [|x l Hx Hl IH]; intros N; cbn [combinations].
  - split; [intros []|intros [[] _]].
  - inversion N as [|y l' Nx Nl]; subst y l'. rewrite in_app_iff, (IH Nl), in_map_iff. split.
    + intros [[y [E Hy]]|(Ha & Hb & L)]; [injection E as <- <-|].
      * repeat split; [left; reflexivity|right; exact Hy|]. specialize (Hx y Hy). apply str_leb_spec in Hx.
        destruct (String.compare x y) eqn:C; [|reflexivity|congruence].
        apply String.compare_eq_iff in C. subst y. contradiction.
      * repeat split; [right; exact Ha|right; exact Hb|exact L].
    + intros (Ha & Hb & L). destruct Ha as [<-|Ha].
      * destruct Hb as [<-|Hb]; [rewrite str_compare_refl in L; discriminate|left; exists b; auto].
      * destruct Hb as [<-|Hb]; [|right; auto].
        specialize (Hx a Ha). apply str_leb_spec in Hx. rewrite String.compare_antisym, L in Hx. cbn in Hx. congruence.
Qed.
Lemma ordered_ok l : sorted String.leb (sort_str (dedup l)) /\ NoDup (sort_str (dedup l)).
Proof.
  split; [apply isort_sorted; [apply String.leb_total|apply str_leb_trans]|]. apply isort_NoDup. apply dedup_NoDup.
Qed.

Definition allowed (must : option (list string)) (h : string) : Prop := match must with Some l => In h l | None => True end.
Lemma allowed_b must h : (match must with Some l => mem h l | None => true end) = true <-> allowed must h.
Proof. destruct must as [l|]; cbn; [apply mem_In|tauto]. Qed.

(** one measure *)
Lemma canon_step_ok P root must m es rs h :
  canon_step P root must m = Ok (es, rs, h) ->
  in_graph P m h /\
  (forall n i, In (n, i) es <-> allowed must h /\ exists d c tfs tf, pf_canon m = Some d /\ mp_by_name P d = Ok c /\
     cn_frames c = Some tfs /\ In tf tfs /\ n = root_node root tf /\ (i = canon_id c tf \/ i = pf_id m)) /\
  (forall n, In n rs <-> allowed must h /\ exists d c tfs tf, pf_canon m = Some d /\ mp_by_name P d = Ok c /\
     cn_frames c = Some tfs /\ In tf tfs /\ n = root_node root tf).
Proof.
  unfold canon_step. intros H. apply bind_ok in H. destruct H as [h' [E H]].
  destruct (match must with Some l => mem h' l | None => true end) eqn:A.
  - apply allowed_b in A. destruct (pf_canon m) as [d|].
    + destruct (mp_by_name P d) as [c|[]] eqn:B; try discriminate.
      * destruct (cn_frames c) as [tfs|] eqn:F; [|discriminate]. injection H as <- <- <-. split; [exact E|]. split.
        -- intros n i. rewrite in_flat_map. split.
           ++ intros [tf [T K]]. split; [exact A|]. exists d, c, tfs, tf. cbn [In] in K.
              destruct K as [K|[K|[]]]; injection K as <- <-; auto 10.
           ++ intros [_ (d' & c' & tfs' & tf & [= <-] & B' & F' & T & -> & K)].
              rewrite B in B'. injection B' as <-. rewrite F in F'. injection F' as <-.
              exists tf. split; [exact T|]. cbn [In]. destruct K as [->| ->]; auto.
        -- intros n. rewrite in_map_iff. split.
           ++ intros [tf [<- T]]. split; [exact A|]. exists d, c, tfs, tf. auto 10.
           ++ intros [_ (d' & c' & tfs' & tf & [= <-] & B' & F' & T & ->)].
              rewrite B in B'. injection B' as <-. rewrite F in F'. injection F' as <-. exists tf. auto.
      * injection H as <- <- <-. split; [exact E|]. split; intros; (split; [intros []|]);
          intros [_ (d' & c' & tfs' & tf & [= <-] & B' & _)]; rewrite B in B'; discriminate.
    + injection H as <- <- <-. split; [exact E|]. split; intros; (split; [intros []|]);
          intros [_ (d' & c' & tfs' & tf & [=] & _)].
  - assert (NA : ~ allowed must h') by (intros X; apply allowed_b in X; congruence).
    injection H as <- <- <-. split; [exact E|]. split; intros; (split; [intros []|tauto]).
Qed.

Lemma canon_dates_ok P ms root must es rs hs :
  add_canon_dates P ms root must = Ok (es, rs, hs) ->
  (forall n i, In (n, i) es <-> exists m h d c tfs tf, In m ms /\ in_graph P m h /\ allowed must h /\ pf_canon m = Some d /\
     mp_by_name P d = Ok c /\ cn_frames c = Some tfs /\ In tf tfs /\ n = root_node root tf /\ (i = canon_id c tf \/ i = pf_id m)) /\
  (forall n, In n rs <-> exists m h d c tfs tf, In m ms /\ in_graph P m h /\ allowed must h /\ pf_canon m = Some d /\
     mp_by_name P d = Ok c /\ cn_frames c = Some tfs /\ In tf tfs /\ n = root_node root tf) /\
  (forall h, In h hs <-> exists m, In m ms /\ in_graph P m h).
Proof.
  unfold add_canon_dates. intros H. apply bind_ok in H. destruct H as [l [M H]]. injection H as <- <- <-.
  apply mapM_ok in M.
  assert (L : forall m, In m ms -> exists e r h, canon_step P root must m = Ok (e, r, h) /\ In (e, r, h) l).
  { intros m Hm. destruct (Forall2_In_l _ _ _ M m Hm) as [[[e r] h] [K1 K2]]. exists e, r, h. auto. }
  assert (R : forall e r h, In (e, r, h) l -> exists m, In m ms /\ canon_step P root must m = Ok (e, r, h)).
  { intros e r h K. destruct (Forall2_In_r _ _ _ M _ K) as [m [K1 K2]]. exists m. auto. }
  split; [|split].
  - intros n i. rewrite in_flat_map. split.
    + intros [[[e r] h] [K I1]]. cbn [fst] in I1. destruct (R _ _ _ K) as [m [Hm C]].
      destruct (canon_step_ok _ _ _ _ _ _ _ C) as (G & E & _). apply E in I1.
      destruct I1 as [A (d & c & tfs & tf & X)]. exists m, h, d, c, tfs, tf. tauto.
    + intros (m & h & d & c & tfs & tf & Hm & G & A & X). destruct (L m Hm) as (e & r & h' & C & K).
      destruct (canon_step_ok _ _ _ _ _ _ _ C) as (G' & E & _). unfold in_graph in G, G'. rewrite G in G'. injection G' as <-.
      exists (e, r, h). split; [exact K|]. cbn [fst]. apply E. split; [exact A|]. exists d, c, tfs, tf. exact X.
  - intros n. rewrite sort_str_In, dedup_In, in_flat_map. split.
    + intros [[[e r] h] [K I1]]. cbn [fst snd] in I1. destruct (R _ _ _ K) as [m [Hm C]].
      destruct (canon_step_ok _ _ _ _ _ _ _ C) as (G & _ & E). apply E in I1.
      destruct I1 as [A (d & c & tfs & tf & X)]. exists m, h, d, c, tfs, tf. tauto.
    + intros (m & h & d & c & tfs & tf & Hm & G & A & X). destruct (L m Hm) as (e & r & h' & C & K).
      destruct (canon_step_ok _ _ _ _ _ _ _ C) as (G' & _ & E). unfold in_graph in G, G'. rewrite G in G'. injection G' as <-.
      exists (e, r, h). split; [exact K|]. cbn [fst snd]. apply E. split; [exact A|]. exists d, c, tfs, tf. exact X.
  - intros h. rewrite in_map_iff. split.
    + intros [[[e r] h'] [<- K]]. destruct (R _ _ _ K) as [m [Hm C]]. exists m. split; [exact Hm|]. cbn [snd].
      apply (canon_step_ok _ _ _ _ _ _ _ C).
    + intros [m [Hm G]]. destruct (L m Hm) as (e & r & h' & C & K).
      destruct (canon_step_ok _ _ _ _ _ _ _ C) as (G' & _ & _). unfold in_graph in G, G'. rewrite G in G'. injection G' as <-.
      exists (e, r, h). auto.
Qed.

Lemma canon_dates_total P ms root must r :
  add_canon_dates P ms root must = Ok r -> forall m, In m ms -> exists h, in_graph P m h.
Proof.
  unfold add_canon_dates. intros H m Hm. apply bind_ok in H. destruct H as [l [M _]]. apply mapM_ok in M.
  destruct (Forall2_In_l _ _ _ M m Hm) as [[[e rs] h] [_ C]]. exists h. apply (canon_step_ok _ _ _ _ _ _ _ C).
Qed.

(** mappings *)
Lemma flat_pairs (roots : list string) (a b n i : string) :
  In (n, i) (flat_map (fun n => [(n, a); (n, b)]) roots) <-> In n roots /\ (i = a \/ i = b).
Proof.
  rewrite in_flat_map. split.
  - intros [x [H [K|[K|[]]]]]; injection K as <- <-; auto.
  - intros [H [->| ->]]; exists n; cbn; auto.
Qed.
Lemma add_mappings_ok P maps must roots es :
  add_mappings P maps must roots false = Ok es ->
  forall n i, In (n, i) es <-> In n roots /\ exists from e r, In (from, e) maps /\ en_canon e = false /\ In r (en_refs e) /\
    In (en_hash e) must /\ In (rf_hash r) must /\ (mp_id P from = Ok i \/ mp_id P (rf_field r) = Ok i).
Proof.
  unfold add_mappings. intros H n i. cbn [andb] in H. pose proof (concatM_ok_all _ _ _ H) as ALL.
  rewrite (concatM_ok_In _ _ _ H). split.
  - intros ([from e] & ys & Hm & E & I1). cbn [fst snd] in E. destruct (en_canon e) eqn:C; [injection E as <-; destruct I1|].
    apply (concatM_ok_In _ _ _ E) in I1. destruct I1 as (r & zs & Hr & F & I2). unfold map_step in F.
    destruct (mem (en_hash e) must) eqn:M1; cbn [andb] in F; [|injection F as <-; destruct I2].
    destruct (mem (rf_hash r) must) eqn:M2; [|injection F as <-; destruct I2].
    apply bind_ok in F. destruct F as [a [Fa F]]. apply bind_ok in F. destruct F as [b [Fb F]]. injection F as <-.
    apply flat_pairs in I2. destruct I2 as [I2 K]. split; [exact I2|]. exists from, e, r. apply mem_In in M1. apply mem_In in M2.
    repeat (split; [assumption|]). destruct K as [->| ->]; auto.
  - intros [Hn (from & e & r & Hm & C & Hr & M1 & M2 & K)]. destruct (ALL _ Hm) as [ys E]. cbn [fst snd] in E.
    exists (from, e), ys. split; [exact Hm|]. split; [exact E|]. cbn [fst snd] in E. rewrite C in E.
    destruct (concatM_ok_all _ _ _ E r Hr) as [zs F]. apply (concatM_ok_In _ _ _ E). exists r, zs. split; [exact Hr|]. split; [exact F|].
    unfold map_step in F. apply mem_In in M1. apply mem_In in M2. rewrite M1, M2 in F. cbn [andb] in F.
    apply bind_ok in F. destruct F as [a [Fa F]]. apply bind_ok in F. destruct F as [b [Fb F]]. injection F as <-.
    apply flat_pairs. split; [exact Hn|]. destruct K as [K|K]; rewrite K in *; [injection Fa as <-|injection Fb as <-]; auto.
Qed.
Lemma add_mappings_none P maps must roots es :
  (forall k e, In (k, e) maps -> en_type e <> FMeasure) -> add_mappings P maps must roots true = Ok es -> es = [].
Proof.
  unfold add_mappings. intros NM H. destruct es as [|[n i] es]; [reflexivity|]. exfalso.
  assert (I1 : In (n, i) ((n, i) :: es)) by (left; reflexivity). apply (concatM_ok_In _ _ _ H) in I1.
  destruct I1 as ([from e] & ys & Hm & E & I1). cbn [fst snd] in E. destruct (en_canon e); [injection E as <-; destruct I1|].
  specialize (NM _ _ Hm). destruct (en_type e); cbn in E; try congruence; injection E as <-; destruct I1.
Qed.

(** views *)
Lemma add_views_ok P a b roots es :
  add_views P a b roots = Ok es ->
  forall n i, In (n, i) es <-> In n roots /\ exists v ids, In v (mp_views P) /\ In a (weak_join_graph_hashes (mp_graph P) v) /\
    In b (weak_join_graph_hashes (mp_graph P) v) /\ mp_expanded P v = Ok ids /\ In i ids.
Proof.
  unfold add_views. intros H n i. pose proof (concatM_ok_all _ _ _ H) as ALL. rewrite (concatM_ok_In _ _ _ H). split.
  - intros (v & ys & Hv & E & I1). cbv zeta in E.
    destruct (mem a _) eqn:M1; cbn [andb] in E; [|injection E as <-; destruct I1].
    destruct (mem b _) eqn:M2; [|injection E as <-; destruct I1]. apply mem_In in M1. apply mem_In in M2.
    apply bind_ok in E. destruct E as [ids [X E]]. injection E as <-. apply in_flat_map in I1. destruct I1 as [j [Hj I1]].
    apply in_map_iff in I1. destruct I1 as [k [K Hk]]. injection K as <- <-. split; [exact Hk|]. exists v, ids. auto 10.
  - intros [Hn (v & ids & Hv & A & B & X & Hi)]. destruct (ALL v Hv) as [ys E]. exists v, ys. split; [exact Hv|].
    split; [exact E|]. cbv zeta in E. apply mem_In in A. apply mem_In in B. rewrite A, B, X in E. cbn [andb bind] in E. injection E as <-.
    apply in_flat_map. exists i. split; [exact Hi|]. apply in_map_iff. exists n. auto.
Qed.

Lemma preds_In es id n : In n (preds es id) <-> In (n, id) es.
Proof.
  unfold preds. rewrite dedup_In, in_map_iff. split.
  - intros [[a b] [<- H]]. apply filter_In in H. destruct H as [H E]. cbn in *. apply String.eqb_eq in E. now subst b.
  - intros H. exists (n, id). split; [reflexivity|]. apply filter_In. split; [exact H|]. cbn. apply String.eqb_refl.
Qed.
Lemma preds_NoDup es id : NoDup (preds es id).
Proof. apply dedup_NoDup. Qed.

Lemma dated_In P m : In m (dated P) <-> dated_measure P m.
Proof.
  unfold dated, dated_measure. rewrite filter_In. destruct (pf_canon m); split.
  - intros [A B]. repeat split; [exact A|exact B|congruence].
  - intros (A & B & _). auto.
  - intros [_ B]. discriminate.
  - intros (_ & _ & B). congruence.
Qed.
Lemma offers_dated P m c tf : offers P m c tf -> dated_measure P m.
Proof. intros (A & B & d & tfs & C & _). repeat split; [exact A|exact B|congruence]. Qed.

(** ** The merged results of a model, exactly: a name is listed for a field id iff it is the name of a merged result
    the field belongs to. *)
Theorem C55_exact P model maps es id s :
  model_mappings P model = Ok maps -> (forall k e, In (k, e) maps -> en_type e <> FMeasure) ->
  build_merged P model = Ok es ->
  (In s (preds es id) <-> exists n, node_name n = s /\ member P maps n id) /\ NoDup (preds es id).
Proof.
  intros MM NM B. split; [|apply preds_NoDup]. rewrite preds_In. unfold build_merged in B. rewrite MM in B. cbn [bind] in B.
  apply bind_ok in B. destruct B as [[[e0 r0] hs] [C0 B]]. apply bind_ok in B. destruct B as [e1 [M0 B]].
  apply bind_ok in B. destruct B as [e2 [PS B]]. injection B as <-.
  apply (add_mappings_none _ _ _ _ _ NM) in M0. subst e1. cbn [app].
  destruct (canon_dates_ok _ _ _ _ _ _ _ C0) as (E0 & _ & HS).
  assert (PU : forall a b, In (a, b) (combinations (sort_str (dedup hs))) <-> pair_in_use P a b).
  { intros a b. destruct (ordered_ok hs) as [S1 S2]. rewrite (combinations_In _ _ _ S1 S2), !sort_str_In, !dedup_In, !HS.
    unfold pair_in_use, in_use. split.
    - intros ([m [A1 A2]] & [m' [B1 B2]] & L). apply dated_In in A1. apply dated_In in B1. repeat split; [exists m|exists m'|]; auto.
    - intros ([m [A1 A2]] & [m' [B1 B2]] & L). apply dated_In in A1. apply dated_In in B1. repeat split; [exists m|exists m'|]; auto. }
  rewrite in_app_iff. split.
  - intros [K|K].
    + apply E0 in K. destruct K as (m & h & d & c & tfs & tf & Hm & G & _ & D & N & F & T & -> & I1).
      apply dated_In in Hm. destruct Hm as (Hm & Me & _).
      assert (O : offers P m c tf) by (repeat split; auto; exists d, tfs; auto).
      exists (NCore tf). split; [reflexivity|]. destruct I1 as [->| ->]; [eapply mb_date; [exact O|reflexivity]|eapply mb_measure; exact O].
    + apply (concatM_ok_In _ _ _ PS) in K. destruct K as ([a b] & zs & Hab & E & K). apply PU in Hab. unfold pair_step in E.
      apply bind_ok in E. destruct E as [[[f1 rs] hs'] [C1 E]]. apply bind_ok in E. destruct E as [f2 [V1 E]].
      apply bind_ok in E. destruct E as [f3 [M1 E]]. injection E as <-.
      destruct (canon_dates_ok _ _ _ _ _ _ _ C1) as (E1 & R1 & _).
      assert (RN : forall n, In n rs -> exists tf m c, n = node_name (NPair a b tf) /\ covers P (NPair a b tf) m c).
      { intros n Hn. apply R1 in Hn. destruct Hn as (m & h & d & c & tfs & tf & Hm & G & A & D & N & F & T & ->).
        apply dated_In in Hm. destruct Hm as (Hm & Me & _). exists tf, m, c. split.
        - unfold root_node, pair_root, node_name. rewrite !append_assoc. reflexivity.
        - split; [exact Hab|]. split; [repeat split; auto; exists d, tfs; auto|].
          cbn in A. destruct A as [<-|[<-|[]]]; auto. }
      rewrite !in_app_iff in K. destruct K as [K|[K|K]].
      * apply E1 in K. destruct K as (m & h & d & c & tfs & tf & Hm & G & A & D & N & F & T & -> & I1).
        apply dated_In in Hm. destruct Hm as (Hm & Me & _).
        assert (O : covers P (NPair a b tf) m c).
        { split; [exact Hab|]. split; [repeat split; auto; exists d, tfs; auto|]. cbn in A. destruct A as [<-|[<-|[]]]; auto. }
        exists (NPair a b tf). split; [unfold root_node, pair_root, node_name; rewrite !append_assoc; reflexivity|].
        destruct I1 as [->| ->]; [eapply mb_date; [exact O|reflexivity]|eapply mb_measure; exact O].
      * apply (add_views_ok _ _ _ _ _ V1) in K. destruct K as [Hn (v & ids & X)]. destruct (RN _ Hn) as (tf & m & c & -> & O).
        exists (NPair a b tf). split; [reflexivity|]. destruct X as (X1 & X2 & X3 & X4 & X5). eapply mb_view; eauto.
      * apply (add_mappings_ok _ _ _ _ _ M1) in K. destruct K as [Hn (from & e & r & X1 & X2 & X3 & X4 & X5 & X6)].
        destruct (RN _ Hn) as (tf & m & c & -> & O). exists (NPair a b tf). split; [reflexivity|].
        cbn in X4, X5. eapply mb_map; eauto; [destruct X4 as [X|[X|[]]]; auto|destruct X5 as [X|[X|[]]]; auto].
  - assert (GR : forall m, dated_measure P m -> exists h, in_graph P m h).
    { intros m Hm. apply dated_In in Hm. exact (canon_dates_total _ _ _ _ _ C0 m Hm). }
    assert (PAIR : forall a b tf m c, covers P (NPair a b tf) m c -> exists f1 f2 f3 rs,
      (forall x, In x (f1 ++ f2 ++ f3) -> In x e2) /\ add_views P a b rs = Ok f2 /\ add_mappings P maps [a; b] rs false = Ok f3 /\
      In (node_name (NPair a b tf)) rs /\ In (node_name (NPair a b tf), canon_id c tf) f1 /\ In (node_name (NPair a b tf), pf_id m) f1).
    { intros a b tf m c (Hab & O & G). apply PU in Hab. destruct (concatM_ok_all _ _ _ PS _ Hab) as [zs E]. unfold pair_step in E.
      pose proof E as E'. apply bind_ok in E. destruct E as [[[f1 rs] hs'] [C1 E]]. apply bind_ok in E. destruct E as [f2 [V1 E]].
      apply bind_ok in E. destruct E as [f3 [M1 E]]. injection E as <-. exists f1, f2, f3, rs.
      destruct (canon_dates_ok _ _ _ _ _ _ _ C1) as (E1 & R1 & _). pose proof (offers_dated _ _ _ _ O) as Dm. apply dated_In in Dm.
      destruct O as (Hm & Me & d & tfs & D & N & F & T).
      assert (NN : node_name (NPair a b tf) = root_node (pair_root a b) tf)
        by (unfold root_node, pair_root, node_name; rewrite !append_assoc; reflexivity).
      assert (AL : exists h, in_graph P m h /\ allowed (Some [a; b]) h) by (destruct G as [G|G]; eexists; (split; [exact G|cbn; auto])).
      destruct AL as (h & G' & A). split.
      { intros x Hx. apply (concatM_ok_In _ _ _ PS). exists (a, b), (f1 ++ f2 ++ f3). auto. }
      split; [exact V1|]. split; [exact M1|]. split; [|split].
      - apply R1. exists m, h, d, c, tfs, tf. auto 10.
      - apply E1. exists m, h, d, c, tfs, tf. auto 12.
      - apply E1. exists m, h, d, c, tfs, tf. auto 12. }
    assert (BOTH : forall n m c tf, covers P n m c -> (match n with NCore t | NPair _ _ t => tf = t end) ->
              In (node_name n, canon_id c tf) (e0 ++ e2) /\ In (node_name n, pf_id m) (e0 ++ e2)).
    { intros [t|a b t] m c tf O ->.
      - cbn [covers] in O. pose proof (offers_dated _ _ _ _ O) as Dm. destruct (GR m Dm) as [h G]. apply dated_In in Dm.
        destruct O as (Hm & Me & d & tfs & D & N & F & T).
        split; apply in_app_iff; left; apply E0; exists m, h, d, c, tfs, t; cbn [allowed]; auto 12.
      - destruct (PAIR _ _ _ _ _ O) as (f1 & f2 & f3 & rs & SUB & _ & _ & _ & K1 & K2).
        split; apply in_app_iff; right; apply SUB; apply in_app_iff; left; assumption. }
    intros [n [<- Mb]]. rewrite <- in_app_iff. destruct Mb as [n m c O|n m c tf O T|a b tf m c v ids i O X1 X2 X3 X4 X5|a b tf m c from e r i O X1 X2 X3 X4 X5 X6].
    + destruct n as [t|a b t]; eapply BOTH; eauto; reflexivity.
    + eapply BOTH; eauto.
    + destruct (PAIR _ _ _ _ _ O) as (f1 & f2 & f3 & rs & SUB & V1 & _ & R & _). apply in_app_iff; right. apply SUB.
      apply in_app_iff; right. apply in_app_iff; left. apply (add_views_ok _ _ _ _ _ V1). split; [exact R|]. exists v, ids. auto 10.
    + destruct (PAIR _ _ _ _ _ O) as (f1 & f2 & f3 & rs & SUB & _ & M1 & R & _). apply in_app_iff; right. apply SUB.
      apply in_app_iff; right. apply in_app_iff; right. apply (add_mappings_ok _ _ _ _ _ M1). split; [exact R|].
      exists from, e, r. repeat (split; [assumption|]). split; [cbn; destruct X4; auto|]. split; [cbn; destruct X5; auto|exact X6].
Qed.
Print Assumptions C55_exact.

(** ** The names of two merged results differ *)
Lemma digit_not_us d : (d < 10)%nat -> Ascii.eqb (digit d) "_"%char = false.
Proof. intros H. do 10 (destruct d as [|d]; [reflexivity|]). lia. Qed.
Lemma nat_str_fuel_us f : forall n acc, has_char "_" acc = false -> has_char "_" (nat_str_fuel f n acc) = false.
Proof.
  induction f as [|f IH]; intros n acc H; [exact H|]. cbn [nat_str_fuel].
  assert (D : has_char "_" (String (digit (n mod 10)) acc) = false).
  { cbn [has_char]. rewrite (digit_not_us (n mod 10)) by (apply Nat.mod_upper_bound; lia). exact H. }
  destruct (Nat.ltb n 10); [exact D|apply IH; exact D].
Qed.
Lemma nat_str_us n : has_char "_" (nat_str n) = false.
Proof. apply nat_str_fuel_us. reflexivity. Qed.
Lemma hash_form g v h : join_graph_hash g v = Ok h -> exists i, h = subquery i.
Proof. unfold join_graph_hash. destruct (find _ _) as [[i c]|]; [intros [= <-]; exists i; reflexivity|discriminate]. Qed.
Lemma in_use_form P h : in_use P h -> exists i, h = subquery i.
Proof. intros [m [_ G]]. exact (hash_form _ _ _ G). Qed.
Lemma subquery_split i j s t : (subquery i ++ "_" ++ s)%string = (subquery j ++ "_" ++ t)%string -> i = j /\ s = t.
Proof.
  unfold subquery. rewrite !append_assoc. intros H. apply append_inj_l in H. cbn [append] in H.
  apply sep_inj in H; [|apply nat_str_us|apply nat_str_us]. destruct H as [H ->]. apply nat_str_inj in H. auto.
Qed.

Definition node_ok (P : mproj) (n : node) : Prop := match n with NCore _ => True | NPair a b _ => pair_in_use P a b end.
Lemma member_ok P maps n i : member P maps n i -> node_ok P n.
Proof.
  intros H. destruct H as [n m c O|n m c tf O T|a b tf m c v ids i O|a b tf m c from e r i O]; try apply O.
  - destruct n; cbn; [exact I|apply O].
  - destruct n; cbn; [exact I|apply O].
Qed.
Theorem C55_names P n n' : node_ok P n -> node_ok P n' -> node_name n = node_name n' -> n = n'.
Proof.
  assert (X : forall a b t u, in_use P a -> (a ++ "_" ++ b ++ "_" ++ t)%string <> ("canon_date_core_" ++ u)%string).
  { intros a b t u A E. apply in_use_form in A. destruct A as [i ->]. discriminate E. }
  intros A B E. destruct n as [t|a b t], n' as [t'|a' b' t']; cbn [node_name] in E.
  - apply append_inj_l in E. now subst.
  - symmetry in E. apply X in E; [contradiction|apply B].
  - apply X in E; [contradiction|apply A].
  - destruct A as (A1 & A2 & _), B as (B1 & B2 & _). apply in_use_form in A1, A2, B1, B2.
    destruct A1 as [i ->], A2 as [j ->], B1 as [i' ->], B2 as [j' ->].
    apply subquery_split in E. destruct E as [<- E]. apply subquery_split in E. destruct E as [<- <-]. reflexivity.
Qed.
Print Assumptions C55_names.

(** ** Field.join_graphs *)
(** What a call returns when the merged results graph is the one of the field's own model: the join graphs every
    referenced view is in, and the merged results of the field's id, with the model's number if there are several. *)
Definition own_graphs (P : mproj) (f : jfield) (h : string) : Prop :=
  In h (weak_join_graph_hashes (mp_graph P) (jf_view f)) /\
  forall rs r, jf_refs f = Some rs -> In (Some r) rs -> In h (weak_join_graph_hashes (mp_graph P) (rf_view r)).
Definition prefix_of (P : mproj) (model : string) (p : string) : Prop :=
  match mp_models P with
  | _ :: _ :: _ => exists i, index_of model (map fst (mp_models P)) = Ok i /\ p = ("m" ++ nat_str i ++ "_")%string
  | _ => p = ""
  end.
Lemma base_In g P f h : g = mp_graph P -> (In h (base_graphs g f) <-> own_graphs P f h).
Proof.
  intros ->. unfold base_graphs, own_graphs. rewrite filter_In, forallb_forall. split.
  - intros [A B]. split; [exact A|]. intros rs r E I1. apply mem_In. apply B. unfold ref_views. rewrite E. right.
    apply in_flat_map. exists (Some r). split; [exact I1|left; reflexivity].
  - intros [A B]. split; [exact A|]. intros v Hv. apply mem_In. unfold ref_views in Hv. destruct Hv as [<-|Hv]; [exact A|].
    destruct (jf_refs f) as [rs|] eqn:E; [|destruct Hv]. apply in_flat_map in Hv. destruct Hv as [[r|] [I1 Hv]]; [|destruct Hv].
    cbn in Hv. destruct Hv as [<-|[]]. eapply B; eauto.
Qed.
Lemma wrap_In P model l l' : wrap P model l = Ok l' -> exists p, prefix_of P model p /\ forall j, In j l' <-> exists x, In x l /\ j = (p ++ x)%string.
Proof.
  unfold wrap, prefix_of. destruct (mp_models P) as [|a [|b r]].
  - intros [= <-]. exists "". split; [reflexivity|]. intros j. split; [intros H; exists j; auto|intros [x [H ->]]; exact H].
  - intros [= <-]. exists "". split; [reflexivity|]. intros j. split; [intros H; exists j; auto|intros [x [H ->]]; exact H].
  - intros H. apply bind_ok in H. destruct H as [i [E H]]. injection H as <-. exists ("m" ++ nat_str i ++ "_")%string.
    split; [exists i; auto|]. intros j. rewrite in_map_iff. split.
    + intros [x [<- H]]. exists x. split; [exact H|]. rewrite !append_assoc. reflexivity.
    + intros [x [H ->]]. exists x. split; [|exact H]. rewrite !append_assoc. reflexivity.
Qed.

(** a cumulative measure, or one computed from such *)
Definition cumulative (f : jfield) : Prop := jf_cumulative f = true \/ exists r, In (Some r) (jf_sql f) /\ rf_cumulative r = true.
Lemma is_cumulative_iff f : is_cumulative f = true <-> cumulative f.
Proof.
  unfold is_cumulative, cumulative. rewrite orb_true_iff, existsb_exists. split; intros [H|H]; auto; right.
  - destruct H as [[r|] [A B]]; [|discriminate]. exists r. auto.
  - destruct H as [r [A B]]. exists (Some r). auto.
Qed.
(** a measure that can only be used in merged results: declared so, or a number computed from measures whose dates are
    in different join graphs *)
Definition dated_ref (f : jfield) (v : string) : Prop :=
  exists r d x, In (Some r) (jf_sql f) /\ rf_measure r = true /\ rf_cumulative r = false /\ rf_canon r = Some d /\ split_char dot d = [v; x].
Definition must_merge (P : mproj) (f : jfield) : Prop :=
  match jf_explicit f with
  | Some b => b = true
  | None => jf_number f = true /\ exists v v' h, dated_ref f v /\ dated_ref f v' /\
            In h (weak_join_graph_hashes (mp_graph P) v) /\ ~ In h (weak_join_graph_hashes (mp_graph P) v')
  end.
Lemma subset_iff a b : subset a b = true <-> forall x, In x a -> In x b.
Proof. unfold subset. rewrite forallb_forall. split; intros H x I1; apply mem_In, H, I1. Qed.
Lemma same_set_iff a b : same_set a b = true <-> forall x, In x a <-> In x b.
Proof. unfold same_set. rewrite andb_true_iff, !subset_iff. firstorder. Qed.
Lemma not_subset a b : subset a b = false -> exists x, In x a /\ ~ In x b.
Proof.
  unfold subset. induction a as [|y a IH]; cbn [forallb]; [discriminate|]. intros H. apply andb_false_iff in H. destruct H as [H|H].
  - exists y. split; [left; reflexivity|]. apply mem_false. exact H.
  - destruct (IH H) as [x [A B]]. exists x. split; [right; exact A|exact B].
Qed.
Lemma canon_sets_In g f ss : canon_sets g (jf_sql f) = Ok ss -> forall s, In s ss <-> exists v, dated_ref f v /\ s = weak_join_graph_hashes g v.
Proof.
  unfold canon_sets. intros H s. pose proof (concatM_ok_all _ _ _ H) as ALL. rewrite (concatM_ok_In _ _ _ H). split.
  - intros (o & zs & I1 & E & I2). destruct o as [r|]; [|injection E as <-; destruct I2].
    destruct (rf_measure r) eqn:M; cbn [andb] in E; [|injection E as <-; destruct I2].
    destruct (rf_cumulative r) eqn:C; cbn [negb] in E; [injection E as <-; destruct I2|].
    destruct (rf_canon r) as [d|] eqn:D; [|injection E as <-; destruct I2].
    destruct (split_char dot d) as [|v [|x [|y l]]] eqn:SP; try discriminate. injection E as <-. destruct I2 as [<-|[]].
    exists v. split; [|reflexivity]. exists r, d, x. auto.
  - intros (v & (r & d & x & I1 & M & C & D & SP) & ->). destruct (ALL _ I1) as [zs E]. exists (Some r), zs. split; [exact I1|]. split; [exact E|].
    rewrite M, C, D, SP in E. cbn [andb negb] in E. injection E as <-. left. reflexivity.
Qed.
Lemma loses_iff P f b : loses_join_ability (mp_graph P) f = Ok b -> (b = true <-> must_merge P f).
Proof.
  unfold loses_join_ability, must_merge. destruct (jf_explicit f) as [e|]; [intros [= <-]; tauto|].
  destruct (jf_number f); [|intros [= <-]; split; [discriminate|intros [X _]; discriminate]].
  intros H. apply bind_ok in H. destruct H as [ss [C H]]. injection H as <-. pose proof (canon_sets_In _ _ _ C) as IN. destruct ss as [|s0 ss].
  - split; [discriminate|]. intros [_ (v & v' & h & A & _)]. exfalso. apply (proj2 (IN (weak_join_graph_hashes (mp_graph P) v))). exists v. auto.
  - destruct (proj1 (IN s0) (or_introl eq_refl)) as (v0 & D0 & E0). rewrite existsb_exists. split.
    + intros [t [It Nt]]. split; [reflexivity|]. apply IN in It. destruct It as (v & Dv & ->). apply negb_true_iff in Nt.
      unfold same_set in Nt. apply andb_false_iff in Nt. destruct Nt as [Nt|Nt]; apply not_subset in Nt; destruct Nt as [h [A B]].
      * exists v, v0, h. rewrite <- E0. auto.
      * exists v0, v, h. rewrite <- E0. auto.
    + intros [_ (v & v' & h & A & B & X & Y)].
      destruct (same_set (weak_join_graph_hashes (mp_graph P) v) s0) eqn:S1.
      * exists (weak_join_graph_hashes (mp_graph P) v'). split; [apply IN; exists v'; auto|]. apply negb_true_iff.
        destruct (same_set (weak_join_graph_hashes (mp_graph P) v') s0) eqn:S2; [|reflexivity]. exfalso.
        rewrite same_set_iff in S1, S2. apply Y. apply S2. apply S1. exact X.
      * exists (weak_join_graph_hashes (mp_graph P) v). split; [apply IN; exists v; auto|]. rewrite S1. reflexivity.
Qed.

Theorem C55_join_graphs P f model maps es gs kept :
  jf_model f = Some model -> model_mappings P model = Ok maps -> (forall k e, In (k, e) maps -> en_type e <> FMeasure) ->
  build_merged P model = Ok es -> fst (join_graphs P None f) = Ok gs ->
  (kept = None \/ kept = Some es) ->
  fst (join_graphs P kept f) = Ok gs /\
  (cumulative f -> forall j, In j gs <-> own_graphs P f j) /\
  (~ cumulative f -> exists p, prefix_of P model p /\
       forall j, In j gs <-> (~ must_merge P f /\ own_graphs P f j) \/
                             exists n, member P maps n (jf_id f) /\ j = (p ++ "merged_result_" ++ node_name n)%string).
Proof.
  intros M MM NM B H K. assert (KE : fst (join_graphs P kept f) = fst (join_graphs P None f)).
  { destruct K as [->| ->]; [reflexivity|]. unfold join_graphs. rewrite M. destruct (is_cumulative f); [reflexivity|].
    cbn [merged_graph]. rewrite B. reflexivity. }
  split; [rewrite KE; exact H|]. clear KE K. unfold join_graphs in H. rewrite M in H. rewrite <- is_cumulative_iff.
  destruct (is_cumulative f).
  - injection H as <-. split; [|congruence]. intros _ j. apply base_In. reflexivity.
  - split; [discriminate|]. intros _. cbn [merged_graph] in H. rewrite B in H. cbn [fst] in H. apply bind_ok in H. destruct H as [ext [W H]].
    apply bind_ok in H. destruct H as [l [L H]]. destruct (wrap_In _ _ _ _ W) as [p [Pp WI]]. exists p. split; [exact Pp|].
    pose proof (loses_iff _ _ _ L) as LI.
    assert (EX : forall j, In j ext <-> exists n, member P maps n (jf_id f) /\ j = (p ++ "merged_result_" ++ node_name n)%string).
    { intros j. rewrite WI. split.
      - intros [x [Hx ->]]. apply in_map_iff in Hx. destruct Hx as [s [<- Hs]].
        apply (proj1 (C55_exact _ _ _ _ _ _ MM NM B)) in Hs. destruct Hs as [n [<- Mb]]. exists n. auto.
      - intros [n [Mb ->]]. exists ("merged_result_" ++ node_name n)%string. split; [|reflexivity]. apply in_map_iff.
        exists (node_name n). split; [reflexivity|]. apply (proj1 (C55_exact _ _ _ _ _ _ MM NM B)). exists n. auto. }
    injection H as <-. intros j. destruct l.
    + rewrite EX. split; [auto|]. intros [[X _]|X]; [tauto|exact X].
    + assert (NM' : ~ must_merge P f) by (rewrite <- LI; discriminate).
      rewrite sort_str_In, in_app_iff, (base_In _ P f j eq_refl), EX. split; [intros [X|X]; auto|intros [[_ X]|X]; auto].
Qed.
Print Assumptions C55_join_graphs.

(** The mappings the code uses here contain no measure: get_mappings(dimensions_only=True) *)
Lemma add_reference_types m from ref ff sp : mf_type ff <> FMeasure -> (forall k e, In (k, e) m -> en_type e <> FMeasure) ->
  forall k e, In (k, e) (add_reference m from ref ff sp) -> en_type e <> FMeasure.
Proof.
  intros T. induction m as [|[k0 e0] m IH]; cbn [add_reference]; intros H k e I1.
  - destruct I1 as [[= <- <-]|[]]. exact T.
  - destruct (String.eqb k0 from).
    + destruct I1 as [[= <- <-]|I1]; [exact (H k0 e0 (or_introl eq_refl))|exact (H k e (or_intror I1))].
    + destruct I1 as [[= <- <-]|I1]; [exact (H k0 e0 (or_introl eq_refl))|]. apply (IH (fun k e i => H k e (or_intror i)) k e I1).
Qed.
Lemma to_loop_no_measure gf sp from ff tos : mf_type ff <> FMeasure -> forall m m', (forall k e, In (k, e) m -> en_type e <> FMeasure) ->
  to_loop gf sp from ff tos m = Ok m' -> forall k e, In (k, e) m' -> en_type e <> FMeasure.
Proof.
  intros T. induction tos as [|t tos IH]; cbn [to_loop]; intros m m' H E; [injection E as <-; exact H|].
  destruct (String.eqb t from); [eapply IH; eauto|]. destruct (gf t) as [tf|[]]; try discriminate; [|eapply IH; eauto].
  destruct (ftype_eqb (mf_type tf) (mf_type ff)); [|discriminate]. eapply IH; [|exact E]. apply add_reference_types; auto.
Qed.
Lemma from_loop_no_measure gf sp all froms : forall m m', (forall k e, In (k, e) m -> en_type e <> FMeasure) ->
  from_loop gf true sp all froms m = Ok m' -> forall k e, In (k, e) m' -> en_type e <> FMeasure.
Proof.
  induction froms as [|f froms IH]; cbn [from_loop]; intros m m' H E; [injection E as <-; exact H|].
  destruct (gf f) as [ff|[]]; try discriminate; [|eapply IH; eauto]. cbn [andb] in E.
  destruct (mf_type ff) eqn:T; cbn [ftype_eqb andb] in E.
  - apply bind_ok in E. destruct E as [m1 [A B]]. eapply IH; [|exact B]. eapply to_loop_no_measure; [|exact H|exact A]. congruence.
  - eapply IH; eauto.
  - destruct (negb sp); [discriminate|]. apply bind_ok in E. destruct E as [m1 [A B]]. eapply IH; [|exact B].
    eapply to_loop_no_measure; [|exact H|exact A]. congruence.
Qed.
Theorem C55_mappings_have_no_measure gf ex cds user maps :
  get_mappings gf ex cds true user = Ok maps -> forall k e, In (k, e) maps -> en_type e <> FMeasure.
Proof.
  unfold get_mappings. intros H. apply bind_ok in H. destruct H as [ds [_ H]].
  assert (G : forall ds m m', (forall k e, In (k, e) m -> en_type e <> FMeasure) -> map_loop gf true ds m = Ok m' ->
              forall k e, In (k, e) m' -> en_type e <> FMeasure).
  { clear. induction ds as [|[n fs] ds IH]; cbn [map_loop]; intros m m' H E; [injection E as <-; exact H|].
    apply bind_ok in E. destruct E as [m1 [A B]]. eapply IH; [|exact B]. eapply from_loop_no_measure; eauto. }
  eapply G; [|exact H]. intros k e [].
Qed.
Print Assumptions C55_mappings_have_no_measure.

(** ** What this means for two fields *)
(** Two measures whose dates have a timeframe in common are in one merged result, whatever their join graphs; and for
    measures at the "canon_date_core" merged results the converse holds too. *)
Theorem C55_measures P maps m1 m2 c1 c2 :
  In m1 (mp_fields P) -> In m2 (mp_fields P) -> pf_measure m1 = true -> pf_measure m2 = true ->
  (exists d, pf_canon m1 = Some d /\ mp_by_name P d = Ok c1) -> (exists d, pf_canon m2 = Some d /\ mp_by_name P d = Ok c2) ->
  (forall m, In m (mp_fields P) -> pf_id m = pf_id m1 -> m = m1) -> (forall m, In m (mp_fields P) -> pf_id m = pf_id m2 -> m = m2) ->
  (forall d c tf, mp_by_name P d = Ok c -> pf_id m1 <> (cn_view c ++ "." ++ cn_name c ++ "_" ++ tf)%string /\
                                           pf_id m2 <> (cn_view c ++ "." ++ cn_name c ++ "_" ++ tf)%string) ->
  forall tf, member P maps (NCore tf) (pf_id m1) /\ member P maps (NCore tf) (pf_id m2) <->
    exists t1 t2, cn_frames c1 = Some t1 /\ In tf t1 /\ cn_frames c2 = Some t2 /\ In tf t2.
Proof.
  intros H1 H2 M1 M2 (d1 & D1 & N1) (d2 & D2 & N2) U1 U2 ND tf.
  assert (ONE : forall m d c, In m (mp_fields P) -> pf_measure m = true -> pf_canon m = Some d -> mp_by_name P d = Ok c ->
     (forall m', In m' (mp_fields P) -> pf_id m' = pf_id m -> m' = m) ->
     (forall d c tf, mp_by_name P d = Ok c -> pf_id m <> (cn_view c ++ "." ++ cn_name c ++ "_" ++ tf)%string) ->
     (member P maps (NCore tf) (pf_id m) <-> exists t, cn_frames c = Some t /\ In tf t)).
  { intros m d c H M D N U NDm. split.
    - intros K. remember (NCore tf) as n eqn:En. remember (pf_id m) as i eqn:Ei.
      destruct K as [n m' c' O|n m' c' tf' O T|a b tf' m' c' v ids j O|a b tf' m' c' from e r j O]; try discriminate; subst n.
      + cbn [covers] in O. destruct O as (A & B & d' & tfs & C & E & F & G). assert (m' = m) as -> by (apply U; [exact A|reflexivity]).
        rewrite D in C. injection C as <-. rewrite N in E. injection E as <-. exists tfs. auto.
      + cbn [covers] in O. destruct O as (A & B & d' & tfs & C & E & F & G). exfalso. eapply NDm; [exact E|reflexivity].
    - intros (t & F & T). eapply mb_measure with (c := c). cbn [covers]. repeat split; auto. exists d, t. auto. }
  rewrite (ONE m1 d1 c1), (ONE m2 d2 c2); auto; try (intros; eapply ND; eauto). split.
  - intros [(t1 & A & B) (t2 & C & D)]. exists t1, t2. auto.
  - intros (t1 & t2 & A & B & C & D). split; [exists t1|exists t2]; auto.
Qed.
Print Assumptions C55_measures.

(** A dimension mapped between two join graphs is in one merged result with any measures of the two whose dates have a
    timeframe in common. *)
Theorem C55_mapped_pair P maps m1 m2 c1 c2 h1 h2 tf from e r i :
  h1 <> h2 -> in_graph P m1 h1 -> in_graph P m2 h2 -> offers P m1 c1 tf -> offers P m2 c2 tf ->
  In (from, e) maps -> en_canon e = false -> In r (en_refs e) -> en_hash e = h1 -> rf_hash r = h2 ->
  (mp_id P from = Ok i \/ mp_id P (rf_field r) = Ok i) ->
  exists n, member P maps n (pf_id m1) /\ member P maps n (pf_id m2) /\ member P maps n i.
Proof.
  intros N G1 G2 O1 O2 Hm C Hr E1 E2 K.
  assert (U1 : in_use P h1) by (exists m1; split; [eapply offers_dated; eauto|exact G1]).
  assert (U2 : in_use P h2) by (exists m2; split; [eapply offers_dated; eauto|exact G2]).
  assert (AB : exists a b, pair_in_use P a b /\ ((a = h1 /\ b = h2) \/ (a = h2 /\ b = h1))).
  { destruct (String.compare h1 h2) eqn:L.
    - apply String.compare_eq_iff in L. contradiction.
    - exists h1, h2. split; [repeat split; auto|auto].
    - exists h2, h1. split; [repeat split; auto|auto]. rewrite String.compare_antisym, L. reflexivity. }
  destruct AB as (a & b & PU & AB). exists (NPair a b tf).
  assert (C1 : covers P (NPair a b tf) m1 c1) by (split; [exact PU|split; [exact O1|destruct AB as [[-> ->]|[-> ->]]; auto]]).
  assert (C2 : covers P (NPair a b tf) m2 c2) by (split; [exact PU|split; [exact O2|destruct AB as [[-> ->]|[-> ->]]; auto]]).
  split; [eapply mb_measure; exact C1|]. split; [eapply mb_measure; exact C2|].
  eapply mb_map; [exact C1|exact Hm|exact C|exact Hr| | |exact K]; destruct AB as [[-> ->]|[-> ->]]; auto.
Qed.
Print Assumptions C55_mapped_pair.

Lemma confined_pair P maps m h a b tf : confined P maps m h -> member P maps (NPair a b tf) (pf_id m) -> h = a \/ h = b.
Proof.
  intros (G & W & U & ND & V & MP) K. remember (NPair a b tf) as n eqn:En. remember (pf_id m) as i eqn:Ei.
  destruct K as [n m' c' O|n m' c' tf' O T|a' b' tf' m' c' v ids j O X1 X2 X3 X4 X5|a' b' tf' m' c' from e r j O X1 X2 X3 X4 X5 X6]; try subst n.
  - cbn [covers] in O. destruct O as (_ & O & GG). assert (Ev : pf_view m' = pf_view m) by (apply U; [apply O|reflexivity]).
    unfold in_graph in *. rewrite Ev, G in GG. destruct GG as [[= <-]|[= <-]]; auto.
  - cbn [covers] in O. destruct O as (_ & (_ & _ & d & tfs & _ & N & _) & _). exfalso. eapply ND; [exact N|reflexivity].
  - injection En as -> -> ->. pose proof (V _ _ X4 X5) as ->. rewrite W in X2. destruct X2 as [<-|[]]. auto.
  - injection En as -> -> ->. exfalso. destruct (MP _ _ _ X1 X3) as [Y1 Y2]. destruct X6; auto.
Qed.
(** Measures of three join graphs are never in one merged result with a dimension, mapped or not: a merged result with
    dimensions is made of two join graphs. *)
Theorem C55_three_graphs P maps m1 m2 m3 h1 h2 h3 x :
  confined P maps m1 h1 -> confined P maps m2 h2 -> confined P maps m3 h3 -> h1 <> h2 -> h1 <> h3 -> h2 <> h3 ->
  plain_dimension P x ->
  ~ exists n, member P maps n (pf_id m1) /\ member P maps n (pf_id m2) /\ member P maps n (pf_id m3) /\ member P maps n x.
Proof.
  intros A B C N1 N2 N3 [PM PD] [[tf|a b tf] (K1 & K2 & K3 & K)].
  - remember (NCore tf) as n eqn:En. destruct K as [n m' c' O|n m' c' tf' O T|a' b' tf' m' c' v ids j O|a' b' tf' m' c' from e r j O]; try discriminate; subst n.
    + cbn [covers] in O. destruct O as (O1 & O2 & _). exact (PM _ O1 O2 eq_refl).
    + cbn [covers] in O. destruct O as (_ & _ & d & tfs & _ & N & _). exact (PD _ _ _ N eq_refl).
  - apply (confined_pair _ _ _ _ _ _ _ A) in K1. apply (confined_pair _ _ _ _ _ _ _ B) in K2. apply (confined_pair _ _ _ _ _ _ _ C) in K3.
    destruct K1, K2, K3; congruence.
Qed.
Print Assumptions C55_three_graphs.

(** One measure whose date has no timeframes (a plain dimension): no field of the project has join graphs any more,
    except cumulative ones. *)
Theorem C55_one_bad_date P m d c f :
  In m (mp_fields P) -> pf_measure m = true -> pf_canon m = Some d -> mp_by_name P d = Ok c -> cn_frames c = None ->
  is_cumulative f = false -> forall gs, fst (join_graphs P None f) <> Ok gs.
Proof.
  intros H M D N F NC gs E. unfold join_graphs in E. destruct (jf_model f) as [model|]; [|discriminate].
  rewrite NC in E. cbn [merged_graph] in E. destruct (build_merged P model) as [es|x] eqn:B; [|discriminate].
  unfold build_merged in B. apply bind_ok in B. destruct B as [maps [_ B]]. apply bind_ok in B. destruct B as [[[e0 r0] hs] [C0 _]].
  unfold add_canon_dates in C0. apply bind_ok in C0. destruct C0 as [l [Mm _]]. apply mapM_ok in Mm.
  assert (Hd : In m (dated P)) by (apply dated_In; repeat split; auto; congruence).
  destruct (Forall2_In_l _ _ _ Mm m Hd) as [y [_ C]]. unfold canon_step in C. apply bind_ok in C. destruct C as [h [_ C]].
  rewrite D, N, F in C. discriminate.
Qed.
Print Assumptions C55_one_bad_date.

(** ** Repeated calls *)
Definition calls (fld : string -> jfield) (ids : list string) : list jop := map (fun i => OCall (fld i)) ids.
Section History.
  Variable w : world.
  Variable u : string.
  Variable fld : string -> jfield.
  Variable mdl : string -> string.
  Hypothesis fld_id : forall i, jf_id (fld i) = i.
  Hypothesis fld_model : forall i, jf_model (fld i) = Some (mdl i).
  Hypothesis same_maps : forall i j, model_mappings (w u) (mdl i) = model_mappings (w u) (mdl j).
  Lemma same_build i j : build_merged (w u) (mdl i) = build_merged (w u) (mdl j).
  Proof. unfold build_merged. rewrite (same_maps i j). reflexivity. Qed.
  Definition inv (c : jconf) : Prop :=
    jc_world c = w /\ jc_user c = u /\
    (js_kept (jc_state c) = None \/ exists es i, build_merged (w u) (mdl i) = Ok es /\ js_kept (jc_state c) = Some es) /\
    forall i v, lookup (u, i) (js_cache (jc_state c)) = Some v -> fst (join_graphs (w u) None (fld i)) = Ok v.
  Lemma kept_same kept i : (kept = None \/ exists es j, build_merged (w u) (mdl j) = Ok es /\ kept = Some es) ->
    fst (join_graphs (w u) kept (fld i)) = fst (join_graphs (w u) None (fld i)) /\
    (snd (join_graphs (w u) kept (fld i)) = None \/ exists es j, build_merged (w u) (mdl j) = Ok es /\ snd (join_graphs (w u) kept (fld i)) = Some es).
  Proof.
    intros K. unfold join_graphs. rewrite fld_model. destruct (is_cumulative (fld i)); [split; [reflexivity|exact K]|].
    cbn [merged_graph]. destruct K as [->|(es & j & B & ->)].
    - split; [reflexivity|]. cbn [merged_graph]. destruct (build_merged (w u) (mdl i)) as [es|e] eqn:B; cbn [snd]; [right; exists es, i; auto|auto].
    - cbn [merged_graph]. rewrite (same_build i j), B. split; [reflexivity|]. right. exists es, j. auto.
  Qed.
  Lemma call_ok c i : inv c -> fst (call c (fld i)) = fst (join_graphs (w u) None (fld i)) /\ inv (snd (call c (fld i))).
  Proof.
    intros (W & U & K & L). unfold call. rewrite U, fld_id. destruct (lookup (u, i) (js_cache (jc_state c))) as [v|] eqn:E.
    - cbn [fst snd]. split; [symmetry; apply L; exact E|]. repeat split; auto.
    - rewrite W. destruct (kept_same _ i K) as [F G]. destruct (join_graphs (w u) (js_kept (jc_state c)) (fld i)) as [r kept'].
      cbn [fst snd] in *. split; [exact F|]. split; [reflexivity|]. split; [reflexivity|]. cbn [jc_state js_kept js_cache]. split; [exact G|].
      intros j v. destruct r as [x|e]; [|apply L]. cbn [lookup]. unfold key_eqb. cbn [fst snd]. rewrite String.eqb_refl. cbn [andb].
      destruct (String.eqb i j) eqn:Eij; [|apply L]. apply String.eqb_eq in Eij. subst j. intros [= <-]. symmetry. exact F.
  Qed.
  Lemma run_ok ids : forall c, inv c -> inv (jrun c (calls fld ids)).
  Proof.
    induction ids as [|i ids IH]; intros c H; [exact H|]. cbn [calls map jrun fold_left]. apply IH. cbn [jstep]. apply call_ok, H.
  Qed.
End History.
(** While the project is not edited and the user not changed, and if all models asked for have the same mappings (for
    example because there is one model), a field's join graphs do not depend on what was asked before. *)
Theorem C55_history w u fld mdl :
  (forall i, jf_id (fld i) = i) -> (forall i, jf_model (fld i) = Some (mdl i)) ->
  (forall i j, model_mappings (w u) (mdl i) = model_mappings (w u) (mdl j)) ->
  forall ids i, fst (call (jrun (start w u) (calls fld ids)) (fld i)) = fst (join_graphs (w u) None (fld i)).
Proof.
  intros A B C ids i. apply (call_ok w u fld mdl A B C). apply (run_ok w u fld mdl A B C). repeat split; [left; reflexivity|].
  intros j v H. discriminate H.
Qed.
Print Assumptions C55_history.

(** joinable_fields lists exactly the fields sharing a join graph with at least one of the given ones. *)
Theorem C55_joinable graphs all given f :
  In f (joinable_fields graphs all given) <-> In f all /\ exists g j, In g given /\ In j (graphs g) /\ In j (graphs f).
Proof.
  unfold joinable_fields. rewrite filter_In, existsb_exists. split.
  - intros [A [j [B C]]]. apply mem_In in C. apply in_flat_map in C. destruct C as [g [C D]]. split; [exact A|]. exists g, j. auto.
  - intros [A (g & j & B & C & D)]. split; [exact A|]. exists j. split; [exact D|]. apply mem_In. apply in_flat_map. exists g. auto.
Qed.
Print Assumptions C55_joinable.

(** ** A project with three views that cannot be joined, a dated measure and a region in each, the regions mapped *)
Definition ex_graph : graph := match build [GView "orders" []; GView "sessions" []; GView "events" []] with Ok g => g | Err _ => [] end.
Definition ex_hash (v : string) : string := match join_graph_hash ex_graph v with Ok h => h | Err _ => "" end.
Definition ex_get (n : string) : res mfield :=
  match split_char dot n with
  | [v; "region"] => if mem v ["orders"; "sessions"; "events"] then Ok (MField n FDim (ex_hash v)) else Err AccessDenied
  | _ => Err AccessDenied
  end.
Definition ex_maps : res mapping := get_mappings ex_get (fun _ => false) [] true [("region", ["orders.region"; "sessions.region"; "events.region"])].
Definition ex_dates : list (string * canon) :=
  [("orders.order", Canon "orders" "order" (Some ["date"; "month"])); ("sessions.session", Canon "sessions" "session" (Some ["date"]));
   ("events.event", Canon "events" "event" (Some ["date"; "hour"]))].
Definition ex_ids : list (string * list string) :=
  [("orders", ["orders.total"; "orders.region"; "orders.order_date"; "orders.order_month"]);
   ("sessions", ["sessions.count"; "sessions.region"; "sessions.session_date"]);
   ("events", ["events.count"; "events.region"; "events.event_date"; "events.event_hour"])].
Definition find_in {B} (d : list (string * B)) (k : string) : res B := match assoc k d with Some v => Ok v | None => Err AccessDenied end.
Definition ex_total := PField "orders.total" "orders" true (Some "orders.order").
Definition ex_sessions := PField "sessions.count" "sessions" true (Some "sessions.session").
Definition ex_events := PField "events.count" "events" true (Some "events.event").
Definition ex_project (models : list (string * res mapping)) (more : list pfield) : mproj :=
  MProj ([ex_total; PField "orders.region" "orders" false None; ex_sessions; PField "sessions.region" "sessions" false None;
          ex_events; PField "events.region" "events" false None] ++ more)
        ["orders"; "sessions"; "events"] (find_in ex_ids) (find_in ex_dates) (fun n => Ok n) ex_graph models.
Definition ex_one : mproj := ex_project [("shop", ex_maps)] [].
Definition ex_field (model view name : string) : jfield := JField (view ++ "." ++ name) view (Some model) false false None (Some []) [].
Definition ex_jg (P : mproj) (view name : string) : list string :=
  match fst (join_graphs P None (ex_field "shop" view name)) with Ok l => l | Err _ => [] end.

Example C55_case :
  ex_jg ex_one "orders" "total" = ["merged_result_canon_date_core_date"; "merged_result_canon_date_core_month";
    "merged_result_subquery_0_subquery_1_date"; "merged_result_subquery_0_subquery_1_month";
    "merged_result_subquery_1_subquery_2_date"; "merged_result_subquery_1_subquery_2_month"; "subquery_1"] /\
  ex_jg ex_one "events" "region" = ["merged_result_subquery_0_subquery_2_date"; "merged_result_subquery_0_subquery_2_hour";
    "merged_result_subquery_1_subquery_2_date"; "merged_result_subquery_1_subquery_2_hour"; "merged_result_subquery_1_subquery_2_month"; "subquery_2"] /\
  ex_jg ex_one "events" "event_hour" = ["merged_result_canon_date_core_hour"; "merged_result_subquery_0_subquery_2_hour";
    "merged_result_subquery_1_subquery_2_hour"; "subquery_2"].
Proof. vm_compute. repeat split. Qed.
(** the hypotheses of C55_exact, C55_join_graphs and C55_history *)
Example C55_case_hypotheses : exists maps es gs, model_mappings ex_one "shop" = Ok maps /\ maps <> [] /\
  (forall k e, In (k, e) maps -> en_type e <> FMeasure) /\ build_merged ex_one "shop" = Ok es /\
  fst (join_graphs ex_one None (ex_field "shop" "orders" "total")) = Ok gs.
Proof.
  destruct ex_maps as [maps|] eqn:E; [|vm_compute in E; discriminate]. destruct (build_merged ex_one "shop") as [es|] eqn:B; [|vm_compute in B; discriminate].
  exists maps, es, (ex_jg ex_one "orders" "total"). split; [exact E|]. split.
  { intro N. clear B. apply (f_equal (fun r => match r with Ok [] => true | _ => false end)) in E. rewrite N in E. clear N. vm_compute in E. discriminate. }
 
  split; [eapply C55_mappings_have_no_measure; exact E|]. split; [reflexivity|]. unfold ex_jg. vm_compute. reflexivity.
Qed.
(** the hypotheses of C55_three_graphs *)
Lemma find_in_ok {B} (d : list (string * B)) k v : find_in d k = Ok v -> In (k, v) d.
Proof. unfold find_in. destruct (assoc k d) eqn:E; [intros [= <-]; apply assoc_In; exact E|discriminate]. Qed.
Lemma ex_confined m h maps : ex_maps = Ok maps ->
  In (m, h) [(ex_total, "subquery_1"); (ex_sessions, "subquery_0"); (ex_events, "subquery_2")] -> confined ex_one maps m h.
Proof.
  intros E H. vm_compute in E. injection E as <-.
  assert (H3 : (m, h) = (ex_total, "subquery_1") \/ (m, h) = (ex_sessions, "subquery_0") \/ (m, h) = (ex_events, "subquery_2")).
  { cbn [In] in H. destruct H as [H|[H|[H|[]]]]; auto. }
  clear H. unfold confined. split; [|split; [|split; [|split; [|split]]]].
  - destruct H3 as [[= -> ->]|[[= -> ->]|[= -> ->]]]; vm_compute; reflexivity.
  - destruct H3 as [[= -> ->]|[[= -> ->]|[= -> ->]]]; vm_compute; reflexivity.
  - intros m' I1. cbn [mp_fields ex_one ex_project app In] in I1.
    destruct H3 as [[= -> ->]|[[= -> ->]|[= -> ->]]]; destruct I1 as [<-|[<-|[<-|[<-|[<-|[<-|[]]]]]]]; cbn; congruence.
  - intros d c tf N. apply find_in_ok in N. cbn [ex_dates In] in N.
    destruct H3 as [[= -> ->]|[[= -> ->]|[= -> ->]]]; destruct N as [[= <- <-]|[[= <- <-]|[[= <- <-]|[]]]]; cbn; discriminate.
  - intros v ids N I1. apply find_in_ok in N. cbn [ex_ids In] in N.
    destruct H3 as [[= -> ->]|[[= -> ->]|[= -> ->]]]; destruct N as [[= <- <-]|[[= <- <-]|[[= <- <-]|[]]]]; cbn in I1 |- *; try reflexivity;
      exfalso; repeat (destruct I1 as [I1|I1]; [discriminate|]); exact I1.
  - intros from e r I1 I2. cbn [In] in I1.
    destruct H3 as [[= -> ->]|[[= -> ->]|[= -> ->]]]; destruct I1 as [[= <- <-]|[[= <- <-]|[[= <- <-]|[]]]]; cbn in I2 |- *;
      destruct I2 as [<-|[<-|[]]]; split; cbn; discriminate.
Qed.
Example C55_three_case : exists maps, ex_maps = Ok maps /\ confined ex_one maps ex_total "subquery_1" /\
  confined ex_one maps ex_sessions "subquery_0" /\ confined ex_one maps ex_events "subquery_2" /\ plain_dimension ex_one "orders.region".
Proof.
  destruct ex_maps as [maps|] eqn:E; [|vm_compute in E; discriminate]. exists maps. split; [reflexivity|].
  repeat (split; [apply ex_confined; [exact E|cbn [In]; auto]|]). clear E. split.
  - intros m I1 M. cbn [mp_fields ex_one ex_project app In] in I1. destruct I1 as [<-|[<-|[<-|[<-|[<-|[<-|[]]]]]]]; cbn in *; congruence.
  - intros d c tf N. apply find_in_ok in N. cbn [ex_dates In] in N. destruct N as [[= <- <-]|[[= <- <-]|[[= <- <-]|[]]]]; cbn; discriminate.
Qed.

(** So a mapped name cannot be used with measures of three join graphs: with the measures of two of them "region" is
    replaced by a field, with those of all three the same query is refused, although each pair works. *)
Definition ex_lookup (P : mproj) (ms : list (string * string)) : Mapping_Model.lookup :=
  map (fun vn : string * string => ((fst vn ++ "." ++ snd vn)%string, ex_jg P (fst vn) (snd vn))) ms.
Definition ex_replace (P : mproj) (ms : list (string * string)) : res Mapping_Model.mfld :=
  u <- Mapping_Model.usable (ex_lookup P ms) ;;
  Mapping_Model.determine (fun n => match split_char dot n with [v; x] => Ok (Mapping_Model.MFld n (ex_jg P v x) None) | _ => Err AccessDenied end)
    (Mapping_Model.Mapping "region" ["orders.region"; "sessions.region"; "events.region"]) (Mapping_Model.joinable_of u) u.
Theorem C55_three_graphs_refuted :
  let t := ("orders", "total") in let s := ("sessions", "count") in let e := ("events", "count") in
  (exists f, ex_replace ex_one [t; s] = Ok f) /\ (exists f, ex_replace ex_one [t; e] = Ok f) /\ (exists f, ex_replace ex_one [s; e] = Ok f) /\
  ex_replace ex_one [t; s; e] = Err QueryError.
Proof. cbv zeta. split; [|split; [|split]]; try (eexists; vm_compute; reflexivity). Qed.
Print Assumptions C55_three_graphs_refuted.

(** joinable_fields of two fields lists fields that share a join graph with only one of them. *)
Theorem C55_joinable_refuted :
  let graphs f := match fst (join_graphs ex_one None f) with Ok l => l | Err _ => [] end in
  let all := [ex_field "shop" "orders" "total"; ex_field "shop" "orders" "note"; ex_field "shop" "events" "count"] in
  exists f g h, In f (joinable_fields graphs all [g; h]) /\ forall j, ~ (In j (graphs f) /\ In j (graphs h)).
Proof.
  cbv zeta. exists (ex_field "shop" "orders" "note"), (ex_field "shop" "orders" "total"), (ex_field "shop" "events" "count"). split.
  - vm_compute. auto.
  - intros j [A B]. vm_compute in A. destruct A as [<-|[]]. vm_compute in B. repeat (destruct B as [B|B]; [discriminate|]). exact B.
Qed.
Print Assumptions C55_joinable_refuted.

(** With two models the answer depends on which was asked first: the graph built for the first model is used for the
    second, whose mappings are then unknown. *)
Theorem C55_second_model_refuted :
  exists w u f g, jf_model f <> jf_model g /\
  fst (call (start w u) g) <> fst (call (jrun (start w u) [OCall f]) g) /\
  (exists l j, fst (call (start w u) g) = Ok l /\ In j l /\ contains "merged_result" j = true) /\
  (forall l j, fst (call (jrun (start w u) [OCall f]) g) = Ok l -> In j l -> contains "merged_result" j = false).
Proof.
  exists (fun _ => ex_project [("plain", Ok []); ("shop", ex_maps)] []), "", (ex_field "plain" "orders" "note"), (ex_field "shop" "orders" "region").
  assert (A : fst (call (start (fun _ => ex_project [("plain", Ok []); ("shop", ex_maps)] []) "") (ex_field "shop" "orders" "region")) =
    Ok ["m1_merged_result_subquery_0_subquery_1_date"; "m1_merged_result_subquery_0_subquery_1_month"; "m1_merged_result_subquery_1_subquery_2_date";
        "m1_merged_result_subquery_1_subquery_2_hour"; "m1_merged_result_subquery_1_subquery_2_month"; "subquery_1"]) by (vm_compute; reflexivity).
  assert (B : fst (call (jrun (start (fun _ => ex_project [("plain", Ok []); ("shop", ex_maps)] []) "") [OCall (ex_field "plain" "orders" "note")])
                  (ex_field "shop" "orders" "region")) = Ok ["subquery_1"]) by (vm_compute; reflexivity).
  rewrite A, B. split; [discriminate|]. split; [discriminate|]. split.
  - eexists _, _. split; [reflexivity|]. split; [left; reflexivity|reflexivity].
  - intros l j [= <-] [<-|[]]. reflexivity.
Qed.
Print Assumptions C55_second_model_refuted.

(** After the project is edited, a field asked before keeps its old join graphs although refresh_cache was called: a
    dated measure in a new join graph is not seen. *)
Theorem C55_edit_refuted :
  exists w w' u f, fst (call (jrun (start w u) [OCall f; OEdit w']) f) <> fst (call (start w' u) f).
Proof.
  exists (fun _ => ex_project [("shop", Ok [])] []), (fun _ => ex_project [("shop", ex_maps)] []), "", (ex_field "shop" "orders" "region").
  intros E. vm_compute in E. discriminate E.
Qed.
Print Assumptions C55_edit_refuted.
(** After the user is changed, the merged results of the former user are used. *)
Theorem C55_user_refuted :
  exists w u u' f g, fst (call (jrun (start w u) [OCall f; OUser u']) g) <> fst (call (start w u') g).
Proof.
  exists (fun u => if String.eqb u "guest" then ex_project [("shop", Ok [])] [] else ex_one), "", "guest",
    (ex_field "shop" "orders" "total"), (ex_field "shop" "orders" "region").
  intros E. vm_compute in E. discriminate E.
Qed.
Print Assumptions C55_user_refuted.
