(** C31, continued: the dates along which a merged query is split, the dimensions attached through a
    mapping, and what is refused. *)
From Coq Require Import Lia.
From Verif Require Import PyBase PyStr PyList PySort PyReplace Merged_Model MergedDerive_Model MergedDerive_Proofs MergedDerive_Props.
Local Open Scope string_scope.
Local Open Scope list_scope.
Local Open Scope nat_scope.

(** * Specification *)
(** Two fields have an ordinary join graph in common. *)
Definition shares (a b : xfield) : Prop :=
  exists j, In j (x_graphs a) /\ In j (x_graphs b) /\ contains "merged_result" j = false.
(** Fields used by the metrics computed from several sub queries. *)
Definition reference (P : xproj) (merged : list xfield) (f : xfield) : Prop :=
  exists m, In m merged /\ In (Some f) (xp_refs P m).

(** * The dates *)
Lemma base_graphs_In f j : In j (base_graphs f) <-> In j (x_graphs f) /\ contains "merged_result" j = false.
Proof. unfold base_graphs. rewrite filter_In, negb_true_iff. reflexivity. Qed.
Lemma overlap_shares a b : overlap (base_graphs a) (base_graphs b) = true <-> shares a b.
Proof.
  unfold overlap, shares. rewrite existsb_exists. split.
  - intros (j & I & M). apply mem_In in M. apply base_graphs_In in I. apply base_graphs_In in M. exists j. tauto.
  - intros (j & A & B & C). exists j. rewrite mem_In, !base_graphs_In. tauto.
Qed.

(** The state: every set belongs to a field of [seen]; every date comes from [src]. *)
Definition sets_from (seen : list xfield) (st : list string * list (list string)) : Prop :=
  forall s, In s (snd st) -> exists f, In f seen /\ s = base_graphs f.
Lemma canon_step_sets am st f seen : sets_from seen st -> sets_from (seen ++ [f]) (canon_step am st f).
Proof.
  destruct st as [dates sets]. unfold sets_from, canon_step. simpl. intros H s I.
  assert (OLD : In s sets -> exists f0, In f0 (seen ++ [f]) /\ s = base_graphs f0).
  { intros X. destruct (H s X) as (g & G & E). exists g. split; [apply in_or_app; auto|exact E]. }
  destruct (x_canon f); [|auto]. destruct (_ || _ || _) in I; [|auto]. simpl in I. apply in_app_or in I. destruct I as [I|[<-|[]]]; [auto|].
  exists f. split; [apply in_or_app; right; left; reflexivity|reflexivity].
Qed.
Lemma canon_step_keeps am st f s : In s (snd st) -> In s (snd (canon_step am st f)).
Proof.
  destruct st as [dates sets]. unfold canon_step. simpl. intros I. destruct (x_canon f); [|exact I].
  destruct (_ || _ || _); [apply in_or_app; left|]; exact I.
Qed.
Lemma canon_step_dates am st f d : In d (fst (canon_step am st f)) -> In d (fst st) \/ x_canon f = Some d.
Proof.
  destruct st as [dates sets]. unfold canon_step. simpl. destruct (x_canon f) as [c|]; [|auto].
  destruct (_ || _ || _); [|auto]. simpl. intros I. apply in_app_or in I. destruct I as [I|[<-|[]]]; auto.
Qed.
(** a dimension that shares a join graph with some field already taken adds nothing, when there are metrics *)
Lemma canon_step_dim st f m : x_measure f = false -> shares f m -> In (base_graphs m) (snd st) -> canon_step true st f = st.
Proof.
  destruct st as [dates sets]. intros M S I. unfold canon_step. rewrite M. simpl negb. simpl in I.
  assert (A : existsb (overlap (base_graphs f)) sets = true).
  { apply existsb_exists. exists (base_graphs m). split; [exact I|]. apply overlap_shares. exact S. }
  rewrite A. rewrite !andb_false_r. simpl. destruct (x_canon f); reflexivity.
Qed.
(** a dimension that shares none with any field taken adds its date *)
Lemma canon_step_lone am st f d seen : x_measure f = false -> x_canon f = Some d -> sets_from seen st ->
  (forall g, In g seen -> ~ shares f g) -> In d (fst (canon_step am st f)).
Proof.
  destruct st as [dates sets]. intros M C S N. unfold canon_step. rewrite M, C.
  assert (A : existsb (overlap (base_graphs f)) sets = false).
  { apply not_true_iff_false. intros X. apply existsb_exists in X. destruct X as (s & I & O).
    destruct (S s I) as (g & G & ->). apply (N g G). apply overlap_shares. exact O. }
  rewrite A. simpl negb. cbv zeta. rewrite !andb_true_l, orb_true_r, orb_true_l. simpl. apply in_or_app. right; left; reflexivity.
Qed.
Lemma canon_first am dates f d : x_canon f = Some d -> x_measure f = true \/ am = false ->
  In d (fst (canon_step am (dates, []) f)) /\ In (base_graphs f) (snd (canon_step am (dates, []) f)).
Proof.
  intros C H. unfold canon_step. rewrite C. cbn [forallb existsb negb orb].
  assert (E : (if am then true && x_measure f else true) = true) by (destruct H as [-> | ->]; [destruct am|]; reflexivity).
  rewrite E. simpl. split; [apply in_or_app; right; left; reflexivity|left; reflexivity].
Qed.

Lemma canon_fold_sets am l : forall seen st, sets_from seen st -> sets_from (seen ++ l) (fold_left (canon_step am) l st).
Proof.
  induction l as [|f l IH]; intros seen st H; simpl; [rewrite app_nil_r; exact H|].
  replace (seen ++ f :: l) with ((seen ++ [f]) ++ l) by (rewrite <- app_assoc; reflexivity).
  apply IH. apply canon_step_sets. exact H.
Qed.
Lemma canon_fold_keeps am l s : forall st, In s (snd st) -> In s (snd (fold_left (canon_step am) l st)).
Proof. induction l as [|f l IH]; intros st H; simpl; [exact H|]. apply IH, canon_step_keeps, H. Qed.
Lemma canon_fold_dates m l : forall st, In (base_graphs m) (snd st) -> 
  forall d, In d (fst (fold_left (canon_step true) l st)) ->
    In d (fst st) \/ exists f, In f l /\ x_canon f = Some d /\ (x_measure f = false -> ~ shares f m).
Proof.
  induction l as [|f l IH]; intros st B d H; simpl in H; [left; exact H|].
  destruct (IH _ (canon_step_keeps _ _ _ _ B) d H) as [I|(g & G & C)]; [|right; exists g; split; [right; exact G|exact C]].
  destruct (canon_step_dates _ _ _ _ I) as [X|X]; [left; exact X|].
  destruct (x_measure f) eqn:M; [right; exists f; split; [left; reflexivity|]; split; [exact X|]; intros; congruence|].
  assert (D : shares f m \/ ~ shares f m).
  { destruct (overlap (base_graphs f) (base_graphs m)) eqn:O; [left; apply overlap_shares; exact O|right].
    intros S. apply overlap_shares in S. congruence. }
  destruct D as [S|S].
  - rewrite (canon_step_dim st f m M S B) in I. left. exact I.
  - right. exists f. split; [left; reflexivity|]. auto.
Qed.

Section Dates.
  Variables (P : xproj) (qm : fdict) (merged secondary dims : list xfield).
  Variables (dm : list (string * list minfo)) (dates used : list string).
  Hypothesis RUN : canon_mapping P qm merged secondary dims = Ok (dm, dates, used).

  Lemma dates_run : exists rd,
    (forall d, In d rd <-> exists f, reference P merged f /\ x_canon f = Some d) /\
    forall d, In d dates <-> In d (fst (fold_left (canon_step (negb (match secondary ++ merged with [] => true | _ => false end)))
                                         (flat_map snd qm ++ dims) (rd, []))).
  Proof.
    unfold canon_mapping in RUN. apply bind_ok in RUN. destruct RUN as (rd & R & H). apply bind_ok in H. destruct H as (es & E & H).
    injection H as _ <- _. exists rd. split.
    - apply mapM_ok in R. intros d. split.
      + intros I. destruct (Forall2_In_r _ _ _ R _ I) as (o & O & Q). apply in_flat_map in O. destruct O as (m & M & O).
        destruct o as [f|]; [|discriminate]. destruct (x_canon f) as [c|] eqn:C; [|discriminate]. injection Q as <-.
        exists f. split; [exists m; auto|exact C].
      + intros (f & (m & M & O) & C).
        assert (I : In (Some f) (flat_map (xp_refs P) merged)) by (apply in_flat_map; eauto).
        destruct (Forall2_In_l _ _ _ R _ I) as (c & Ic & Q). rewrite C in Q. injection Q as <-. exact Ic.
    - intros d. unfold sort_str. rewrite isort_In, dedup_In. reflexivity.
  Qed.
End Dates.

(** With metrics: every date of a metric is used; any other date belongs to a dimension that shares no
    join graph with the first metric; and a dimension that shares none with any other field brings its own. *)
Theorem C31_dates P qm merged secondary dims dm dates used m ms d0 :
  canon_mapping P qm merged secondary dims = Ok (dm, dates, used) ->
  secondary ++ merged <> [] -> flat_map snd qm = m :: ms -> x_canon m = Some d0 ->
  (forall f, In f (flat_map snd qm) -> x_measure f = true) -> (forall f, In f dims -> x_measure f = false) ->
  (forall f d, In f (flat_map snd qm) -> x_canon f = Some d -> In d dates) /\
  (forall d, In d dates -> (exists f, (In f (flat_map snd qm) \/ reference P merged f) /\ x_canon f = Some d) \/
                           (exists f, In f dims /\ x_canon f = Some d /\ ~ shares f m)) /\
  (forall pre f post d, dims = pre ++ f :: post -> x_canon f = Some d ->
     (forall g, In g (flat_map snd qm ++ pre) -> ~ shares f g) -> In d dates).
Proof.
  intros RUN NE QM C0 MS DS. destruct (dates_run _ _ _ _ _ _ _ _ RUN) as (rd & RD & DT).
  replace (negb (match secondary ++ merged with [] => true | _ => false end)) with true in DT
    by (destruct (secondary ++ merged); [congruence|reflexivity]).
  rewrite QM in *. simpl app in DT. simpl fold_left in DT.
  pose proof (canon_first true rd m d0 C0 (or_introl (MS m (or_introl eq_refl)))) as (F1 & F2).
  split; [|split].
  - intros f d I C. apply DT. destruct I as [<-|I].
    + apply canon_fold_mono. assert (d = d0) by congruence. subst d. exact F1.
    + apply (canon_fold_measure _ _ f d); auto; [apply in_or_app; left; exact I|apply MS; right; exact I].
  - intros d I. apply DT in I. apply (canon_fold_dates m _ _ F2) in I. destruct I as [I|(f & I & C & N)].
    + apply canon_step_dates in I. left. destruct I as [I|I]; [|exists m; split; [left; left; reflexivity|exact I]].
      apply RD in I. destruct I as (f & R & C). exists f. auto.
    + apply in_app_or in I. destruct I as [I|I].
      * left. exists f. split; [left; right; exact I|exact C].
      * right. exists f. split; [exact I|]. split; [exact C|]. apply N. apply DS. exact I.
  - intros pre f post d E C N. apply DT. rewrite E. rewrite app_assoc, fold_left_app. simpl. apply canon_fold_mono.
    apply (canon_step_lone true _ f d (m :: ms ++ pre)); auto.
    + apply DS. rewrite E. apply in_or_app. right; left; reflexivity.
    + replace (m :: ms ++ pre) with ([m] ++ (ms ++ pre)) by reflexivity. apply canon_fold_sets.
      apply (canon_step_sets true (rd, []) m []). intros s [].
Qed.
Print Assumptions C31_dates.

(** Without metrics: the first dimension that has a date brings it, and so does every dimension that
    shares no join graph with that one, whatever it shares with others. *)
Theorem C31_dates_dimensions P dims dm dates used pre f post d :
  canon_mapping P [] [] [] dims = Ok (dm, dates, used) ->
  dims = pre ++ f :: post -> (forall g, In g pre -> x_canon g = None) -> x_canon f = Some d ->
  (forall g, In g dims -> x_measure g = false) ->
  In d dates /\
  (forall g c, In g post -> x_canon g = Some c -> ~ shares g f -> In c dates) /\
  (forall c, In c dates -> exists g, In g dims /\ x_canon g = Some c).
Proof.
  intros RUN E PRE C DS. destruct (dates_run _ _ _ _ _ _ _ _ RUN) as (rd & RD & DT). simpl app in DT. cbn [negb] in DT.
  assert (RE : rd = []). { destruct rd as [|x r]; [reflexivity|]. destruct (proj1 (RD x) (or_introl eq_refl)) as (g & (q & [] & _) & _). }
  subst rd. cbn [flat_map app] in DT.
  assert (ST : forall l, (forall g, In g l -> x_canon g = None) -> forall st, fold_left (canon_step false) l st = st).
  { induction l as [|g l IH]; intros H st; [reflexivity|]. simpl. rewrite IH by (intros; apply H; right; auto).
    destruct st as [a b]. unfold canon_step. rewrite (H g (or_introl eq_refl)). reflexivity. }
  assert (STEP : fold_left (canon_step false) dims ([], []) = fold_left (canon_step false) post (canon_step false ([], []) f)).
  { rewrite E, fold_left_app. simpl. rewrite (ST pre PRE). reflexivity. }
  destruct (canon_first false [] f d C (or_intror eq_refl)) as (F1 & F2).
  split; [|split].
  - apply DT. rewrite STEP. apply canon_fold_mono. exact F1.
  - intros g c I Cg N. apply DT. rewrite STEP. apply in_split in I. destruct I as (l1 & l2 & ->).
    rewrite fold_left_app. simpl. apply canon_fold_mono.
    pose proof (canon_fold_keeps false l1 _ _ F2) as K. destruct (fold_left (canon_step false) l1 _) as [ds ss]. simpl in K.
    unfold canon_step. rewrite Cg.
    assert (A : forallb (overlap (base_graphs g)) ss = false).
    { apply not_true_iff_false. intros X. rewrite forallb_forall in X. apply N. apply overlap_shares. auto. }
    rewrite A. simpl. apply in_or_app. right; left; reflexivity.
  - intros c I. apply DT in I. clear - I.
    assert (G : forall l st, In c (fst (fold_left (canon_step false) l st)) -> In c (fst st) \/ exists g, In g l /\ x_canon g = Some c).
    { induction l as [|g l IH]; intros st H; [left; exact H|]. simpl in H. apply IH in H. destruct H as [H|(x & X & Y)].
      - apply canon_step_dates in H. destruct H as [H|H]; [left; exact H|]. right. exists g. split; [left; reflexivity|exact H].
      - right. exists x. split; [right; exact X|exact Y]. }
    destruct (G _ _ I) as [[]|H]. exact H.
Qed.
Print Assumptions C31_dates_dimensions.

(** * What is refused *)
Lemma hash_key_total P : (forall d, exists g, xp_by_name P d = Ok g) -> forall f, exists h, join_hash_key P f = Ok h.
Proof.
  intros T f. unfold join_hash_key. destruct (x_measure f); [|eauto]. destruct (x_canon f) as [d|]; [|eauto].
  destruct (T d) as (g & ->). cbn [bind]. eauto.
Qed.
(** A metric without a date, or a computed metric that uses something that is no field or has no date,
    is refused with QueryError; nothing else is refused here when the dates are fields. *)
Theorem C31_undated P merged secondary : (forall d, exists g, xp_by_name P d = Ok g) ->
  ((exists qm, metric_groups P merged secondary = Ok qm) <->
     (forall m o, In m merged -> In o (xp_refs P m) -> exists f d, o = Some f /\ x_canon f = Some d) /\
     (forall f, In f secondary -> exists d, x_canon f = Some d)) /\
  (forall k, metric_groups P merged secondary = Err k -> k = QueryError).
Proof.
  intros T. pose proof (hash_key_total P T) as HK.
  assert (R : forall l qm, ((exists qm', foldM (add_ref P) l qm = Ok qm') <-> forall o, In o l -> exists f d, o = Some f /\ x_canon f = Some d)
     /\ (forall k, foldM (add_ref P) l qm = Err k -> k = QueryError)).
  { induction l as [|o l IH]; intros qm; cbn [foldM].
    - split; [|discriminate]. split; [intros _ o []|eauto].
    - unfold add_ref at 1 3. destruct o as [f|].
      + destruct (x_canon f) as [d|] eqn:C.
        * destruct (HK f) as (h & ->). cbn [bind]. destruct (IH (push (cte_name d h) f qm)) as [A B]. split; [|exact B].
          rewrite A. split; [intros H o [<-|I]; eauto|intros H o I; apply H; right; exact I].
        * cbn [bind]. split; [|intros k E; injection E as <-; reflexivity].
          split; [intros (q & E); discriminate|intros H; destruct (H (Some f) (or_introl eq_refl)) as (g & d & E & D)].
          injection E as <-. congruence.
      + cbn [bind]. split; [|intros k E; injection E as <-; reflexivity].
        split; [intros (q & E); discriminate|intros H; destruct (H None (or_introl eq_refl)) as (g & d & E & D); discriminate]. }
  assert (S : forall l qm, ((exists qm', foldM (add_secondary P) l qm = Ok qm') <-> forall f, In f l -> exists d, x_canon f = Some d)
     /\ (forall k, foldM (add_secondary P) l qm = Err k -> k = QueryError)).
  { induction l as [|f l IH]; intros qm; cbn [foldM].
    - split; [|discriminate]. split; [intros _ o []|eauto].
    - unfold add_secondary at 1 3. destruct (HK f) as (h & ->). cbn [bind]. destruct (x_canon f) as [d|] eqn:C.
      + cbv zeta. destruct (existsb _ _); cbn [bind].
        * destruct (IH qm) as [A B]. split; [|exact B].
          rewrite A. split; [intros H o [<-|I]; eauto|intros H o I; apply H; right; exact I].
        * destruct (IH (push (cte_name d h) f qm)) as [A B]. split; [|exact B].
          rewrite A. split; [intros H o [<-|I]; eauto|intros H o I; apply H; right; exact I].
      + cbn [bind]. split; [|intros k E; injection E as <-; reflexivity].
        split; [intros (q & E); discriminate|intros H; destruct (H f (or_introl eq_refl)) as (d & D); congruence]. }
  unfold metric_groups. destruct (R (flat_map (xp_refs P) merged) []) as [R1 R2].
  destruct (foldM (add_ref P) (flat_map (xp_refs P) merged) []) as [q|k] eqn:E; cbn [bind].
  - destruct (S secondary q) as [S1 S2]. destruct (foldM (add_secondary P) secondary q) as [q2|k] eqn:E2; cbn [bind].
    + split; [|discriminate]. split; [intros _|eauto]. split.
      * intros m o M O. apply (proj1 R1); [eauto|]. apply in_flat_map. eauto.
      * apply (proj1 S1). eauto.
    + split; [|intros k' H; injection H as <-; eauto]. split; [intros (x & X); discriminate|intros [_ H]].
      apply S1 in H. destruct H as (x & X). discriminate.
  - split; [|intros k' H; injection H as <-; eauto]. split; [intros (x & X); discriminate|intros [H _]].
    assert (Z : exists qm', (Err k : res fdict) = Ok qm').
    { apply R1. intros o O. apply in_flat_map in O. destruct O as (m & M & O). eauto. }
    destruct Z as (x & X). discriminate.
Qed.
Print Assumptions C31_undated.

(** A dimension that is not one of the dates, is not in a sub query's join graphs and has no mapping is
    refused with QueryError. *)
Theorem C31_unmapped P dates used st f hash h :
  join_hash_key P f = Ok hash -> ~ In (field_key f) dates ->
  In h used -> (forall j, In j (x_graphs f) -> ~ In j (hash_subqueries h)) ->
  assoc (field_key f) (ds_map st) = None ->
  dim_iter P dates used st f = Err QueryError.
Proof.
  intros HK ND IH NJ NM. unfold dim_iter. rewrite HK. cbn [bind].
  replace (mem (field_key f) dates) with false by (symmetry; apply mem_false; exact ND).
  assert (A : forall hs qd, In h hs -> attach_all P (ds_metrics st) (ds_map st) f hs qd = Err QueryError).
  { induction hs as [|x hs IHs]; intros qd I; [destruct I|]. cbn [attach_all]. unfold attach_one. rewrite NM.
    destruct (hash_contains x (x_graphs f)) eqn:C; cbn [bind]; [|reflexivity]. apply IHs.
    destruct I as [->|I]; [|exact I]. exfalso. unfold hash_contains in C. apply existsb_exists in C.
    destruct C as (j & J & K). apply mem_In in K. exact (NJ j J K). }
  rewrite (A used (ds_dims st) IH). reflexivity.
Qed.
Print Assumptions C31_unmapped.

(** * Dimensions attached through a mapping *)
(** To a sub query that computes metrics go the fields of the mapping entries leading to it ... *)
Theorem C31_attached P qm h es fs :
  In h (map fst qm) ->
  Forall2 (fun e f => xp_field P (mi_field e) = Ok f) es fs ->
  (forall e f, In (e, f) (combine es fs) -> mi_from e <> h ->
     (exists d, x_canon f = Some d) /\ exists t, mi_to e = Some t /\ contains t h = false) ->
  attach_mapped P qm h es = Ok (map snd (filter (fun ef => String.eqb (mi_from (fst ef)) h) (combine es fs))).
Proof.
  intros K F H. induction F as [|e f es fs E F IH]; [reflexivity|]. cbn [attach_mapped]. rewrite E. cbn [bind].
  rewrite IH by (intros e' f' I; apply H; right; exact I). cbn [combine filter fst].
  destruct (String.eqb_spec (mi_from e) h) as [Q|Q].
  - replace (has_key (mi_from e) qm) with true; [reflexivity|]. unfold has_key. rewrite Q.
    destruct (assoc h qm) eqn:A; [reflexivity|]. exfalso. apply assoc_None in A. contradiction.
  - rewrite andb_false_r. destruct (H e f (or_introl eq_refl) Q) as ((d & ->) & t & -> & ->). reflexivity.
Qed.
Print Assumptions C31_attached.
(** ... to one that does not, none by that way. *)
Theorem C31_not_attached P qm h es fs :
  ~ In h (map fst qm) ->
  Forall2 (fun e f => xp_field P (mi_field e) = Ok f) es fs ->
  (forall e f, In (e, f) (combine es fs) -> (exists d, x_canon f = Some d) /\ exists t, mi_to e = Some t /\ contains t h = false) ->
  attach_mapped P qm h es = Ok [].
Proof.
  intros K F H. induction F as [|e f es fs E F IH]; [reflexivity|]. cbn [attach_mapped]. rewrite E. cbn [bind].
  rewrite IH by (intros e' f' I; apply H; right; exact I).
  destruct (H e f (or_introl eq_refl)) as ((d & ->) & t & -> & ->).
  destruct (has_key (mi_from e) qm) eqn:HK; [|reflexivity]. destruct (String.eqb_spec (mi_from e) h) as [Q|Q]; [|reflexivity].
  exfalso. apply K. rewrite <- Q. unfold has_key in HK. destruct (assoc (mi_from e) qm) as [l|] eqn:A; [|discriminate].
  apply assoc_In in A. apply in_map_iff. eexists. split; [|exact A]. reflexivity.
Qed.
Print Assumptions C31_not_attached.

(** * The table of mapped fields handed to the merging query *)
Lemma get_push {B} k k' (v : B) d x : In x (get_list k (push k' v d)) <-> In x (get_list k d) \/ (k = k' /\ x = v).
Proof.
  rewrite get_list_push. destruct (String.eqb_spec k k') as [->|N]; [|tauto].
  rewrite in_app_iff. simpl. intuition.
Qed.
Lemma map_hashes_lookup key mp r hs : forall cur st k fld h,
  In (fld, h) (get_list k (ms_lookup (map_hashes key mp r cur hs st))) <->
  In (fld, h) (get_list k (ms_lookup st)) \/ (k = key /\ fld = mr_field r /\ In h hs /\ In (mr_to r) (hash_subqueries h)).
Proof.
  induction hs as [|x hs IH]; intros cur st k fld h; cbn [map_hashes]; [simpl; tauto|].
  cbv zeta. rewrite IH. cbn [ms_lookup].
  assert (HC : hash_contains x [mr_to r] = true <-> In (mr_to r) (hash_subqueries x)).
  { unfold hash_contains. cbn [existsb]. rewrite orb_false_r. apply mem_In. }
  destruct (hash_contains x [mr_to r]) eqn:X.
  - rewrite get_push. split.
    + intros [[A|[A B]]|A]; [auto| |]; right; [injection B as -> ->|]; simpl; tauto.
    + intros [A|(A & B & [<-|C] & D)]; [auto| |]; subst; auto.
  - split.
    + intros [A|A]; [auto|right; simpl; tauto].
    + intros [A|(A & B & [<-|C] & D)]; [auto| |]; [apply HC in D; discriminate|right; auto].
Qed.
Lemma map_refs_lookup used key mp : forall rs st k fld h,
  In (fld, h) (get_list k (ms_lookup (fold_left (fun st r => map_hashes key mp r None used st) rs st))) <->
  In (fld, h) (get_list k (ms_lookup st)) \/
  (k = key /\ In h used /\ exists r, In r rs /\ fld = mr_field r /\ In (mr_to r) (hash_subqueries h)).
Proof.
  induction rs as [|r rs IH]; intros st k fld h; cbn [fold_left].
  - split; [auto|]. intros [A|(_ & _ & r & [] & _)]. exact A.
  - rewrite IH, map_hashes_lookup. split.
    + intros [[A|(A & B & C & D)]|(A & B & q & Q & C)]; [auto| |]; right; (split; [exact A|]); (split; [tauto|]).
      * exists r. simpl. auto.
      * exists q. simpl. tauto.
    + intros [A|(A & B & q & [<-|Q] & C & D)]; [auto| |]; [left; right; auto|right]. split; [exact A|]. split; [exact B|]. eauto.
Qed.
(** A field stands for another in a sub query exactly when the sub query covers the field's join graph
    and a mapping says so (or both are dates of the query). *)
Theorem C31_lookup P used st k fld h :
  In (fld, h) (get_list k (ms_lookup (model_mappings P used st))) <->
  In (fld, h) (get_list k (ms_lookup st)) \/
  (In h used /\ exists mp r, In (k, mp) (xp_maps P) /\ In r (mm_refs mp) /\ fld = mr_field r /\ In (mr_to r) (hash_subqueries h)).
Proof.
  unfold model_mappings. generalize (xp_maps P). intros ms. revert st.
  induction ms as [|[q mp] ms IH]; intros st; cbn [fold_left].
  - split; [auto|]. intros [A|(_ & mp & r & [] & _)]. exact A.
  - rewrite IH. unfold map_refs at 1. cbn [fst snd]. rewrite map_refs_lookup. split.
    + intros [[A|(A & B & r & R & C)]|(A & mp' & r & M & C)]; [auto| |]; right; (split; [assumption|]).
      * exists mp, r. subst. simpl. tauto.
      * exists mp', r. simpl. tauto.
    + intros [A|(A & mp' & r & [M|M] & R & C)]; [auto| |].
      * injection M as <- <-. left. right. split; [reflexivity|]. split; [exact A|]. eauto.
      * right. split; [exact A|]. eauto 6.
Qed.
Print Assumptions C31_lookup.

(** * The order of the sub queries *)
Definition before {A} (a b : A) (l : list A) : Prop := exists l1 l2 l3, l = l1 ++ a :: l2 ++ b :: l3.
Lemma in_before {A} (a b : A) l : In a l -> In b l -> a <> b -> before a b l \/ before b a l.
Proof.
  intros I J N. apply in_split in I. destruct I as (l1 & l2 & ->). apply in_app_or in J. destruct J as [J|[J|J]].
  - right. apply in_split in J. destruct J as (m1 & m2 & ->). exists m1, m2, l2. rewrite <- app_assoc. reflexivity.
  - congruence.
  - left. apply in_split in J. destruct J as (m1 & m2 & ->). exists l1, m1, m2. reflexivity.
Qed.
Lemma index_of_nth k : forall l i, NoDup l -> nth_error l i = Some k -> index_of k l = Some i.
Proof.
  induction l as [|x l IH]; intros i N H; [destruct i; discriminate|]. inversion N as [|? ? N1 N2]; subst. cbn [index_of].
  destruct i as [|i]; simpl in H.
  - injection H as <-. rewrite String.eqb_refl. reflexivity.
  - destruct (String.eqb_spec k x) as [->|Q]; [exfalso; apply N1; eapply nth_error_In; eauto|]. rewrite (IH i N2 H). reflexivity.
Qed.
Lemma digit_order i j : i < j -> j < 10 -> String.leb (nat_str j) (nat_str i) = false.
Proof.
  intros A B. do 10 (destruct j as [|j]; [do 10 (destruct i as [|i]; [try lia; reflexivity|]); lia|]). lia.
Qed.
(** With at most ten groups of metrics their sub queries come in the order of the metrics. *)
Theorem C31_order P qm merged secondary dims dm dates used i j a b :
  canon_mapping P qm merged secondary dims = Ok (dm, dates, used) ->
  NoDup (map fst qm) -> List.length qm <= 10 ->
  nth_error (map fst qm) i = Some a -> nth_error (map fst qm) j = Some b -> i < j ->
  In a used -> In b used -> before a b used.
Proof.
  intros RUN ND LE NA NB LT IA IB. unfold canon_mapping in RUN. apply bind_ok in RUN. destruct RUN as (rd & _ & H).
  apply bind_ok in H. destruct H as (es & _ & H). injection H as _ _ <-.
  set (ord := fun a0 b0 : string => String.leb (hash_order qm a0) (hash_order qm b0)) in *.
  assert (OA : hash_order qm a = nat_str i) by (unfold hash_order; rewrite (index_of_nth a _ i ND NA); reflexivity).
  assert (OB : hash_order qm b = nat_str j) by (unfold hash_order; rewrite (index_of_nth b _ j ND NB); reflexivity).
  assert (J : j < 10). { assert (j < List.length (map fst qm)) by (apply nth_error_Some; congruence). rewrite map_length in *. lia. }
  assert (N : a <> b). { intros ->. rewrite OA in OB. apply nat_str_inj in OB. lia. }
  destruct (in_before a b _ IA IB N) as [B|(l1 & l2 & l3 & B)]; [exact B|]. exfalso.
  assert (SO : sorted ord (l1 ++ b :: l2 ++ a :: l3)).
  { rewrite <- B. apply isort_sorted; [intros x y; apply String.leb_total|intros x y z; apply str_leb_trans]. }
  assert (L : ord b a = true).
  { clear - SO. induction l1 as [|x l1 IH]; simpl in SO; inversion SO as [|? ? H1 H2]; subst; [|auto].
    apply H1. apply in_or_app. right; left; reflexivity. }
  unfold ord in L. rewrite OA, OB, (digit_order i j LT J) in L. discriminate.
Qed.
Print Assumptions C31_order.

(** With eleven they do not: the eleventh comes before the third, positions being compared as text. *)
Definition wide_field (m : bool) (d : string) : xfield := XF ("v." ++ d) "v" d m None (Some d) ["subquery_0"] false.
Definition wide_dates := ["a"; "b"; "c"; "d"; "e"; "f"; "g"; "h"; "i"; "j"; "k"].
Definition wide : xproj := XP (fun n => Ok (wide_field false n)) (fun n => Ok (wide_field false n)) (fun _ => []) [].
Theorem C31_order_refuted :
  exists qm dm dates used, metric_groups wide [] (map (wide_field true) wide_dates) = Ok qm /\
    canon_mapping wide qm [] (map (wide_field true) wide_dates) [] = Ok (dm, dates, used) /\
    NoDup (map fst qm) /\ nth_error (map fst qm) 2 = Some "c__subquery_0" /\ nth_error (map fst qm) 10 = Some "k__subquery_0" /\
    before "k__subquery_0" "c__subquery_0" used.
Proof.
  eexists. eexists. eexists. eexists. split; [vm_compute; reflexivity|]. split; [vm_compute; reflexivity|].
  split; [repeat constructor; simpl; intuition discriminate|]. split; [reflexivity|]. split; [reflexivity|].
  exists ["a__subquery_0"; "b__subquery_0"], [], ["d__subquery_0"; "e__subquery_0"; "f__subquery_0"; "g__subquery_0"; "h__subquery_0"; "i__subquery_0"; "j__subquery_0"].
  reflexivity.
Qed.
Print Assumptions C31_order_refuted.

(** * With a single date *)
(** Fewer than two dates: no sub query counts as used. *)
Theorem C31_single_date P qm merged secondary dims dm dates used :
  canon_mapping P qm merged secondary dims = Ok (dm, dates, used) ->
  (forall d d', In d dates -> In d' dates -> d = d') -> used = [].
Proof.
  intros RUN U. destruct (canon_mapping_spec _ _ _ _ _ _ _ _ RUN) as (_ & K & _).
  destruct used as [|k r]; [reflexivity|]. destruct (proj1 (K k) (or_introl eq_refl)) as (t & d & T & D & N & _).
  exfalso. apply N. apply U; assumption.
Qed.
Print Assumptions C31_single_date.
(** Then every dimension that is not the date itself takes all the metrics away from the sub query of
    its own date and join graphs. *)
Theorem C31_single_date_drops P dates dfs st st' f d h :
  foldM (dim_iter P dates []) dfs st = Ok st' ->
  In f dfs -> ~ In (field_key f) dates -> x_canon f = Some d -> join_hash_key P f = Ok h ->
  get_list (cte_name d h) (ds_metrics st') = [].
Proof.
  intros H I N C K. revert st H. induction dfs as [|g r IH]; intros st H; [destruct I|]. cbn [foldM] in H.
  apply bind_ok in H. destruct H as (s & S & H). destruct I as [->|I]; [|exact (IH I s H)].
  assert (Z : get_list (cte_name d h) (ds_metrics s) = []).
  { unfold dim_iter in S. rewrite K in S. cbn [bind] in S.
    replace (mem (field_key f) dates) with false in S by (symmetry; apply mem_false; exact N).
    cbn [attach_all bind existsb] in S. unfold lone_dimension in S. rewrite C in S.
    apply bind_ok in S. destruct S as (qd & _ & S). injection S as <-. cbn [ds_metrics]. rewrite get_list_set.
    unfold cte_name. rewrite String.eqb_refl. reflexivity. }
  destruct (dims_metrics _ _ _ _ _ _ H) as [_ M]. destruct (M (cte_name d h)) as [E|[E _]]; [congruence|exact E].
Qed.
Print Assumptions C31_single_date_drops.
(** A dimension without a date, or mapped to a field without one, stops the query with AttributeError. *)
Theorem C31_lone_undated P dates st f hash :
  join_hash_key P f = Ok hash -> ~ In (field_key f) dates ->
  (forall e, In e (get_list (field_key f) (ds_map st)) -> (exists g, xp_field P (mi_field e) = Ok g) /\ exists t, mi_to e = Some t) ->
  ((exists st', dim_iter P dates [] st f = Ok st') <->
     (exists d, x_canon f = Some d) /\
     forall e g, In e (get_list (field_key f) (ds_map st)) -> xp_field P (mi_field e) = Ok g -> exists d, x_canon g = Some d) /\
  (forall k, dim_iter P dates [] st f = Err k -> k = AttributeError).
Proof.
  intros K N T. unfold dim_iter. rewrite K. cbn [bind].
  replace (mem (field_key f) dates) with false by (symmetry; apply mem_false; exact N).
  cbn [attach_all bind existsb]. unfold lone_dimension. cbn [ds_dims ds_map ds_metrics].
  destruct (x_canon f) as [d|] eqn:C.
  2: { split; [|intros k E; injection E as <-; reflexivity]. split; [intros (s & E); discriminate|intros ((d & E) & _); discriminate]. }
  unfold get_list in T. 
  set (step := fun qd e => g <- xp_field P (mi_field e) ;;
     match x_canon g, mi_to e with None, _ => Err AttributeError | _, None => Err KeyError
     | Some c, Some t => Ok (push (undot c ++ "__" ++ t)%string g qd) end).
  assert (F : forall es, (forall e, In e es -> (exists g, xp_field P (mi_field e) = Ok g) /\ exists t, mi_to e = Some t) -> forall qd,
    ((exists q, foldM step es qd = Ok q) <-> forall e g, In e es -> xp_field P (mi_field e) = Ok g -> exists c, x_canon g = Some c) /\
    (forall k, foldM step es qd = Err k -> k = AttributeError)).
  { induction es as [|e es IH]; intros HT qd; cbn [foldM].
    - split; [|discriminate]. split; [intros _ e g []|eauto].
    - destruct (HT e (or_introl eq_refl)) as ((g & G) & t & Te). unfold step at 1 3. rewrite G, Te. cbn [bind].
      destruct (x_canon g) as [c|] eqn:Cg; cbn [bind].
      + destruct (IH (fun x X => HT x (or_intror X)) (push (undot c ++ "__" ++ t)%string g qd)) as [A B]. split; [|exact B].
        rewrite A. split; [intros H e' g' [<-|I] E; [|eauto]; assert (g' = g) by congruence; subst; eauto|].
        intros H e' g' I. apply H. right; exact I.
      + split; [|intros k E; injection E as <-; reflexivity]. split; [intros (q & E); discriminate|].
        intros H. destruct (H e g (or_introl eq_refl) G) as (c & Cc). congruence. }
  destruct (assoc (field_key f) (ds_map st)) as [es|] eqn:A.
  - unfold get_list. rewrite A. set (qd := push _ f (ds_dims st)). destruct (F es T qd) as [F1 F2].
    destruct (foldM step es qd) as [q|k]; cbn [bind].
    + split; [|discriminate]. split; [intros _|eauto]. split; [eauto|]. apply F1. eauto.
    + split; [|intros k' E; injection E as <-; auto]. split; [intros (s & E); discriminate|].
      intros (_ & H). apply F1 in H. destruct H as (q & Q). discriminate.
  - cbn [bind]. split; [|discriminate]. split; [intros _|eauto]. split; [eauto|]. unfold get_list. rewrite A. intros e g [].
Qed.
Print Assumptions C31_lone_undated.

(** * Concrete cases *)
Definition p_reg := XF "people.region" "people" "region" false None (Some "people.seen") ["subquery_9"; "merged_result_x"] false.
Definition o_rev2 := XF "orders.revenue" "orders" "revenue" true None (Some "orders.order") ["subquery_0"; "subquery_2"; "merged_result_x"] false.
Definition o_reg2 := XF "orders.region" "orders" "region" false None (Some "orders.kept") ["subquery_3"; "subquery_2"] false.
(** A metric, a dimension that shares a join graph with it (its date does not count) and one that does not. *)
Example C31_dates_case : exists dm used,
  canon_mapping wide [("k", [o_rev2])] [] [o_rev2] [o_reg2; p_reg] = Ok (dm, ["orders.order"; "people.seen"], used) /\
  shares o_reg2 o_rev2 /\ ~ shares p_reg o_rev2 /\ ~ shares p_reg o_reg2.
Proof.
  eexists. eexists. split; [vm_compute; reflexivity|]. split; [exists "subquery_2"; simpl; intuition|].
  split; intros (j & A & B & C); simpl in A, B; destruct A as [<-|[<-|[]]]; try discriminate C; intuition discriminate.
Qed.
(** Two metrics of one date: the second, which shares a join graph with the first, is not remembered, so
    a dimension that shares one only with the second brings its own date. *)
Definition o_cnt2 := XF "orders.cnt" "orders" "cnt" true None (Some "orders.order") ["subquery_0"; "subquery_3"] false.
Definition q_reg := XF "q.region" "q" "region" false None (Some "q.seen") ["subquery_3"] false.
Example C31_dates_second : exists dm used,
  canon_mapping wide [("k", [o_rev2; o_cnt2])] [] [o_rev2; o_cnt2] [q_reg] = Ok (dm, ["orders.order"; "q.seen"], used) /\ shares q_reg o_cnt2.
Proof. eexists. eexists. split; [vm_compute; reflexivity|]. exists "subquery_3". simpl. intuition. Qed.
Example C31_undated_case :
  metric_groups wide [] [o_rev2; XF "x.y" "x" "y" true None None [] false] = Err QueryError.
Proof. reflexivity. Qed.
Example C31_unmapped_case :
  dim_iter wide ["orders.order"; "people.seen"] ["orders_order__subquery_0"] (DS [] [] []) p_reg = Err QueryError /\
  forall j, In j (x_graphs p_reg) -> ~ In j (hash_subqueries "orders_order__subquery_0").
Proof. split; [reflexivity|]. intros j [<-|[<-|[]]] I; vm_compute in I; intuition discriminate. Qed.
Example C31_lone_case :
  dim_iter wide [] [] (DS [("people_seen__subquery_9", [o_rev2])] [] [("people.region", [MI "a" "x" (Some "subquery_3")])]) p_reg =
  Ok (DS [("people_seen__subquery_9", [])] [("people_seen__subquery_9", [p_reg]); ("a__subquery_3", [wide_field false "a"])]
         [("people.region", [MI "a" "x" (Some "subquery_3")])]).
Proof. reflexivity. Qed.
