(** C65: validating a model reports exactly the rules its definition breaks. *)
From Coq Require Import List String ZArith Bool Permutation.
From Verif Require Import PyBase PyStr PyRefs PyReplace PyList Names_Model Names_Props FieldCheck_Model FieldCheck_Spec FieldCheck_Proofs ViewCheck_Model ViewCheck_Spec ViewCheck_Proofs ViewCheck_Raises ModelCheck_Model ModelCheck_Spec ModelCheck_Proofs.
Import ListNotations.
Local Open Scope string_scope.
Local Open Scope list_scope.

Lemma wall_any {A} (f : A -> wr) l r : In r (fst (wall f l)) -> exists x, In x l /\ In r (fst (f x)).
Proof. induction l as [|a l IH]; cbn [wall]; intros H; [destruct H|]. apply wseq_sub in H. destruct H as [H|H]; [exists a; split; [now left|exact H]|]. destruct (IH H) as (x & I & J). exists x. split; [now right|exact J]. Qed.
Lemma entry_sound E n v r : In r (fst (map_errors E (n, v))) -> exists x, r = MMap n x /\ map_breaks E n v x.
Proof.
  unfold map_errors. intros H. apply wseq_sub in H. destruct H as [H|H].
  - cbn [fst] in H. apply in_say in H. destruct H as [H ->]. rewrite negb_true_iff, proper_not in H. exists PName. split; [reflexivity|exact H].
  - destruct (is_dict v) eqn:D.
    2:{ pose proof D as D'. apply dict_iff in D'. destruct v as [| | | | | |c]; try discriminate D; destruct H as [<-|[]]; exists PValue; split; try reflexivity; exact D'. }
    destruct v as [| | | | | |c]; try discriminate D. apply wseq_sub in H. destruct H as [H|H].
    + cbn [fst] in H. rewrite !in_app_iff, !in_say in H. rewrite !(bad_iff _ is_str Str) in H by apply str_iff. destruct H as [[H ->]|[[H ->]|[H ->]]]; eexists; (split; [reflexivity|]); cbn [map_breaks]; eauto.
    + apply wseq_sub in H. destruct H as [H|H].
      * unfold get in H. destruct (assoc "fields" c) as [w|] eqn:A; [|destruct H]. destruct (is_list w) eqn:L.
        -- destruct w as [| | | | |l|]; try discriminate L. apply wall_any in H. rename H into K.
           destruct K as (x & I & J). apply field_in in J. destruct J as (f & -> & G & ->). exists (PField f). split; [reflexivity|]. exists c. split; [reflexivity|]. split; [|exact G]. exists l. auto.
        -- assert (K : r = MMap n PFields) by (destruct w; try discriminate L; destruct H as [<-|[]]; reflexivity). apply list_iff in L. exists PFields. split; [exact K|]. exists c. split; [reflexivity|]. exists w. auto.
      * cbn [fst] in H. apply in_keys_of in H. destruct H as (k & -> & I & K). exists (PKey k). split; [reflexivity|]. exists c. auto.
Qed.

Section Maps.
  Variable E : menv.
  Hypothesis OR : NoDup (me_order E).
  Lemma maps_sound d out r : mapping_errors E d = Ok out -> In r out ->
    r = MMapQuery /\ (exists l, entries E d l /\ entries_fail E l QueryError) \/ maps_break E d r.
  Proof.
    unfold mapping_errors. pose proof (mappings_outcome E OR d) as O. intros H I. destruct (mappings E d) as [l|f|e]; [|destruct (fault_raises E d f); [discriminate H|]; apply ok_inj in H; subst out; destruct I as [<-|[]]; right|discriminate H].
    - inversion O as [l' EN| | | |]; subst l'. destruct (wall (map_errors E) l) as [es [e|]] eqn:W.
      + assert (X : snd (wall (map_errors E) l) = Some e) by (rewrite W; reflexivity). assert (Y : fst (wall (map_errors E) l) = es) by (rewrite W; reflexivity). destruct e; try discriminate H. apply ok_inj in H. subst out.
        apply in_app_iff in I. destruct I as [I|[<-|[]]]; [|left; split; [reflexivity|]; exists l; split; [exact EN|]; apply all_some; exact X]. right.
        rewrite <- Y in I. apply wall_any in I. destruct I as ([m v] & I & J). apply entry_sound in J. destruct J as (x & -> & B). exists l, v. auto.
      + apply ok_inj in H. subst out. assert (Y : fst (wall (map_errors E) l) = es) by (rewrite W; reflexivity). right. rewrite <- Y in I. apply wall_any in I. destruct I as ([m v] & I & J). apply entry_sound in J. destruct J as (x & -> & B). exists l, v. auto.
    - inversion O; subst; cbn [maps_break]; eauto.
  Qed.
  Lemma maps_complete d out r : mapping_errors E d = Ok out -> (forall l, entries E d l -> ~ entries_fail E l QueryError) -> maps_break E d r -> In r out.
  Proof.
    unfold mapping_errors. pose proof (mappings_outcome E OR d) as O. intros H Q B. destruct O as [l EN|ND|m k ST T|m k ST L S|m k e ST L S N A].
    - destruct r; cbn [maps_break] in B; try (destruct B; fail).
      + exfalso. destruct f.
        * destruct EN as (m & U & _). exact (not_dict_no_user d m B U).
        * destruct B as (m & ST & T). destruct (entries_no_stop E d l m k EN ST (not_free_taken E m k T)) as (_ & X & _). contradiction.
        * destruct B as (m & k & ST & L & S). destruct (entries_no_stop E d l m k EN ST (not_free_special E m k _ S)) as (X & _). congruence.
      + destruct B as (l' & v & EN' & I & B). pose proof (entries_unique E d l l' EN EN') as <-. destruct (wall (map_errors E) l) as [es o] eqn:W. assert (X : snd (wall (map_errors E) l) = o) by (rewrite W; reflexivity). assert (Y : fst (wall (map_errors E) l) = es) by (rewrite W; reflexivity).
        destruct o as [e|]; [destruct e; try discriminate H; exfalso; apply (Q l EN), all_some; exact X|]. apply ok_inj in H. subst out. rewrite <- Y. apply (wall_in _ _ _ X). exists (name, v). split; [exact I|].
        apply entry_in; [|eauto]. apply (proj1 (wall_none _ _) X _ I).
    - destruct (fault_raises E d PNotDict); [discriminate H|]. apply ok_inj in H. subst out. destruct r; cbn [maps_break] in B; try (destruct B; fail).
      + destruct f; [now left| |]; exfalso.
        * destruct B as (m & ST & _). exact (not_dict_no_user d m ND (proj1 ST)).
        * destruct B as (m & k & ST & _). exact (not_dict_no_user d m ND (proj1 ST)).
      + exfalso. destruct B as (l & v & (m & U & _) & _). exact (not_dict_no_user d m ND U).
    - destruct (fault_raises E d (PReserved k)); [discriminate H|]. apply ok_inj in H. subst out. pose proof (not_free_taken E m k T) as NF. destruct r; cbn [maps_break] in B; try (destruct B; fail).
      + destruct f.
        * exfalso. exact (not_dict_no_user d m B (proj1 ST)).
        * destruct B as (m' & ST' & T'). destruct (stop_unique E d m k m' k0 ST NF ST' (not_free_taken E m' k0 T')) as [_ <-]. now left.
        * exfalso. destruct B as (m' & k' & ST' & L' & S'). destruct (stop_unique E d m k m' k' ST NF ST' (not_free_special E m' k' _ S')) as [<- <-]. contradiction.
      + exfalso. destruct B as (l & v & EN & _). destruct (entries_no_stop E d l m k EN ST NF) as (_ & X & _). contradiction.
    - destruct (fault_raises E d PProject); [discriminate H|]. apply ok_inj in H. subst out. pose proof (not_free_special E m k _ S) as NF. destruct r; cbn [maps_break] in B; try (destruct B; fail).
      + destruct f; [exfalso; exact (not_dict_no_user d m B (proj1 ST))| |now left].
        exfalso. destruct B as (m' & ST' & T'). destruct (stop_unique E d m k m' k0 ST NF ST' (not_free_taken E m' k0 T')) as [<- <-]. contradiction.
      + exfalso. destruct B as (l & v & EN & _). destruct (entries_no_stop E d l m k EN ST NF) as (X & _). congruence.
    - discriminate H.
  Qed.
  Lemma maps_query d out : mapping_errors E d = Ok out -> (In MMapQuery out <-> exists l, entries E d l /\ entries_fail E l QueryError).
  Proof.
    intros H. split; [intros I; destruct (maps_sound d out _ H I) as [[_ X]|[]]; exact X|]. intros (l & EN & F). unfold mapping_errors in H. pose proof (mappings_outcome E OR d) as O. destruct O as [l' EN'|ND|m k ST T|m k ST L S|m k e ST L S N A].
    - pose proof (entries_unique E d l l' EN EN') as <-. apply all_some in F. destruct (wall (map_errors E) l) as [es o]. cbn [snd] in F. subst o. apply ok_inj in H. subst out. apply in_app_iff. right. now left.
    - exfalso. destruct EN as (m & U & _). exact (not_dict_no_user d m ND U).
    - exfalso. destruct (entries_no_stop E d l m k EN ST (not_free_taken E m k T)) as (_ & X & _). contradiction.
    - exfalso. destruct (entries_no_stop E d l m k EN ST (not_free_special E m k _ S)) as (X & _). congruence.
    - discriminate H.
  Qed.
  Lemma maps_fails d : fails (mapping_errors E d) <-> maps_raise E d.
  Proof.
    unfold mapping_errors, maps_raise. pose proof (mappings_outcome E OR d) as O. destruct O as [l EN|ND|m k ST T|m k ST L S|m k e ST L S N A].
    - transitivity (exists e, entries_fail E l e /\ e <> QueryError).
      + destruct (wall (map_errors E) l) as [es o] eqn:W. assert (X : snd (wall (map_errors E) l) = o) by (rewrite W; reflexivity). destruct o as [e|].
        * apply all_some in X. assert (UQ : forall e', entries_fail E l e' -> e' = e) by (intros e' K; apply all_some in K; apply all_some in X; congruence).
          destruct e; try (split; [intros _; eexists; split; [exact X|discriminate]|intros _; apply fails_err; exact I]). rewrite fails_ok. split; [intros []|]. intros (e & K & N). apply N. auto.
        * rewrite fails_ok. split; [intros []|]. intros (e & K & _). apply all_some in K. congruence.
      + split; [intros (e & K & N); right; right; right; eauto|]. intros [(v & X & Y & _)|[(m & k & ST & L & S & _)|[(m & k & e & ST & L & S & N & A)|(l' & e & EN' & K & N)]]].
        * exfalso. destruct EN as (m & U & _). apply (not_dict_no_user d m); [exists v; auto|exact U].
        * exfalso. destruct (entries_no_stop E d l m k EN ST (not_free_special E m k _ S)) as (X & _). congruence.
        * exfalso. destruct (entries_no_stop E d l m k EN ST (not_free_special E m k _ S)) as (X & _ & Y). apply Y, A. congruence.
        * pose proof (entries_unique E d l l' EN EN') as <-. eauto.
    - destruct ND as (v & X & Y). cbn [fault_raises]. unfold get. rewrite X. unfold field_text. destruct (contains "Field" (me_str E v) && contains "missing required key" (me_str E v)) eqn:C.
      + rewrite fails_err. split; [intros _|auto]. apply andb_true_iff in C. left. exists v. tauto.
      + rewrite fails_ok. split; [intros []|]. assert (ND : forall m, ~ user d m) by (intros m U; apply (not_dict_no_user d m); [exists v; auto|exact U]). intros [(w & X' & _ & P & Q)|[(m & k & ST & _)|[(m & k & e & ST & _)|(l & e & (m & U & _) & _)]]].
        * assert (w = v) by congruence. subst w. rewrite P, Q in C. discriminate C.
        * exact (ND m (proj1 ST)).
        * exact (ND m (proj1 ST)).
        * exact (ND m U).
    - pose proof (not_free_taken E m k T) as NF. cbn [fault_raises]. rewrite fails_ok. split; [intros []|]. intros [(w & X' & Y & _)|[(m' & k' & ST' & L' & S' & _)|[(m' & k' & e & ST' & L' & S' & _)|(l & e & EN & _)]]].
      + apply (not_dict_no_user d m); [exists w; auto|apply ST].
      + destruct (stop_unique E d m k m' k' ST NF ST' (not_free_special E m' k' _ S')) as [<- <-]. contradiction.
      + destruct (stop_unique E d m k m' k' ST NF ST' (not_free_special E m' k' _ S')) as [<- <-]. contradiction.
      + destruct (entries_no_stop E d l m k EN ST NF) as (_ & X & _). contradiction.
    - pose proof (not_free_special E m k _ S) as NF. cbn [fault_raises]. destruct (me_reraise E) eqn:R.
      + rewrite fails_err. split; [intros _|auto]. right. left. exists m, k. auto.
      + rewrite fails_ok. split; [intros []|]. intros [(w & X' & Y & _)|[(m' & k' & _ & _ & _ & R')|[(m' & k' & e & ST' & L' & S' & N & _)|(l & e & EN & _)]]].
        * apply (not_dict_no_user d m); [exists w; auto|apply ST].
        * discriminate R'.
        * destruct (stop_unique E d m k m' k' ST NF ST' (not_free_special E m' k' _ S')) as [<- <-]. congruence.
        * destruct (entries_no_stop E d l m k EN ST NF) as (X & _). congruence.
    - rewrite fails_err. split; [intros _|auto]. right. right. left. exists m, k, e. auto.
  Qed.
End Maps.

Lemma order_nodup E : Permutation (me_order E) special_names -> NoDup (me_order E).
Proof. intros P. apply (Permutation_NoDup (Permutation_sym P)). unfold special_names. repeat constructor; cbn; intuition congruence. Qed.

Section C65.
  Variable E : menv.
  Hypothesis ORDER : Permutation (me_order E) special_names.

  Lemma collect_split d es n : collect_errors E d = Ok es -> is_text d "name" n ->
    exists g m, grants_errors d = Ok g /\ mapping_errors E d = Ok m /\ forall r, In r es <-> In r (model_part E n d) \/ In r g \/ In r m.
  Proof.
    unfold collect_errors, is_text, get at 1. intros H N. rewrite N in H. apply bind_ok in H. destruct H as [g [G H]]. apply bind_ok in H. destruct H as [m [M H]]. apply ok_inj in H. subst es.
    exists g, m. split; [exact G|]. split; [exact M|]. intros r. unfold model_part. rewrite !in_app_iff. tauto.
  Qed.

  (** Every error that is reported is a broken rule, or says that a mapped field is ambiguous *)
  Theorem C65_sound d n es r : is_text d "name" n -> collect_errors E d = Ok es -> In r es ->
    model_breaks E n d r \/ r = MMapQuery /\ exists l, entries E d l /\ entries_fail E l QueryError.
  Proof.
    intros N H I. destruct (collect_split d es n H N) as (g & m & G & M & X). apply X in I. unfold model_breaks. destruct I as [I|[I|I]].
    - left. left. apply model_part_iff. exact I.
    - left. right. left. apply (grants_iff d g r G). exact I.
    - destruct (maps_sound E (order_nodup E ORDER) d m r M I) as [K|K]; auto.
  Qed.
  (** The errors reported are exactly the broken rules *)
  Theorem C65_exact d n es r : is_text d "name" n -> collect_errors E d = Ok es -> (forall l, entries E d l -> ~ entries_fail E l QueryError) ->
    (In r es <-> model_breaks E n d r).
  Proof.
    intros N H Q. split.
    - intros I. destruct (C65_sound d n es r N H I) as [K|[_ (l & EN & F)]]; [exact K|]. destruct (Q l EN F).
    - destruct (collect_split d es n H N) as (g & m & G & M & X). intros B. apply X. destruct B as [B|[B|B]].
      + left. apply model_part_iff. exact B.
      + right. left. apply (grants_iff d g r G). exact B.
      + right. right. exact (maps_complete E (order_nodup E ORDER) d m r M Q B).
  Qed.
  Theorem C65_clean d n es : is_text d "name" n -> collect_errors E d = Ok es -> (es = [] <-> (forall r, ~ model_breaks E n d r) /\ forall l, entries E d l -> ~ entries_fail E l QueryError).
  Proof.
    intros N H. split.
    - intros ->. assert (Q : forall l, entries E d l -> ~ entries_fail E l QueryError).
      { intros l EN F. destruct (collect_split d [] n H N) as (g & m & _ & M & X). pose proof (proj2 (maps_query E (order_nodup E ORDER) d m M) (ex_intro _ l (conj EN F))) as K. destruct (X MMapQuery) as [_ Y]. destruct (Y (or_intror (or_intror K))). }
      split; [|exact Q]. intros r B. apply (C65_exact d n [] r N H Q) in B. destruct B.
    - intros [B Q]. destruct es as [|r es]; [reflexivity|]. exfalso. apply (B r). apply (C65_exact d n (r :: es) r N H Q). now left.
  Qed.
  (** When the validation raises *)
  Theorem C65_raises d : fails (collect_errors E d) <-> (forall n, ~ is_text d "name" n) \/ grants_raise d \/ maps_raise E d.
  Proof.
    rewrite <- grants_fails, <- (maps_fails E (order_nodup E ORDER) d). unfold collect_errors, is_text, get at 1. destruct (assoc "name" d) as [v|].
    2:{ rewrite fails_err. split; [intros _|auto]. left. discriminate. }
    destruct v as [| | | |n| |]. 1-4,6-7: rewrite fails_err; split; [intros _|auto]; left; intros m X; discriminate X.
    rewrite fails_bind. split.
    - intros [H|(g & G & H)]; [auto|]. rewrite fails_bind in H. destruct H as [H|(m & _ & H)]; [auto|]. destruct H as [? H]; discriminate H.
    - intros [H|[H|H]]; [exfalso; apply (H n eq_refl)|auto|]. destruct (ok_or_fails (grants_errors d)) as [[g G]|G]; [|auto]. right. exists g. split; [exact G|]. rewrite fails_bind. auto.
  Qed.
  (** A mapping that uses the name of one of the dates is always reported when the project knows its dates *)
  Theorem C65_reserved d n es m : is_text d "name" n -> collect_errors E d = Ok es -> assoc "mappings" d = Some (YDict m) ->
    (forall k, In k special_names -> exists fs, me_special E k = Ok fs) ->
    ((exists k, In (MMapFault (PReserved k)) es) <-> exists k, In k special_names /\ ~ lacks m k)
    /\ forall k, In (MMapFault (PReserved k)) es -> In k special_names /\ ~ lacks m k.
  Proof.
    intros N H U SP. assert (US : user d m) by (left; exact U).
    assert (S : forall k, In (MMapFault (PReserved k)) es -> In k special_names /\ ~ lacks m k).
    { intros k I. destruct (C65_sound d n es _ N H I) as [[[]|[[]|(m' & ST & T)]]|[X _]]; [|discriminate X]. pose proof (user_unique _ _ _ US (proj1 ST)) as <-. split; [|exact T].
      destruct ST as (_ & o & o' & X & _). apply (Permutation_in _ ORDER). rewrite X. apply in_app_iff. right. now left. }
    split; [|exact S]. split; [intros (k & I); exists k; auto|]. intros (k & I & T).
    assert (F : exists j, stops_at E d m j /\ ~ lacks m j).
    { apply (Permutation_in _ (Permutation_sym ORDER)) in I. assert (SP' : forall j, In j (me_order E) -> exists fs, me_special E j = Ok fs) by (intros j J; apply SP, (Permutation_in _ ORDER J)).
      assert (G : forall o p, me_order E = p ++ o -> Forall (free E m) p -> In k o -> exists j, stops_at E d m j /\ ~ lacks m j).
      { induction o as [|a o IH]; intros p X FP IN; [destruct IN|]. destruct (assoc a m) as [w|] eqn:A.
        - exists a. split; [split; [exact US|exists p, o; auto]|]. unfold lacks. congruence.
        - destruct IN as [->|IN]; [exfalso; apply T; exact A|]. apply (IH (p ++ [a])); [rewrite <- app_assoc; exact X| |exact IN]. apply Forall_app. split; [exact FP|]. constructor; [|constructor]. split; [exact A|]. apply SP'. rewrite X. apply in_app_iff. right. now left. }
      apply (G (me_order E) []); [reflexivity|constructor|exact I]. }
    destruct F as (j & ST & TJ). exists j. destruct (collect_split d es n H N) as (g & mm & G & M & X). apply X. right. right. apply (maps_complete E (order_nodup E ORDER) d mm _ M); [|exists m; auto].
    intros l EN _. destruct (entries_no_stop E d l m j EN ST (not_free_taken E m j TJ)) as (_ & L & _). contradiction.
  Qed.
  (** *** Where the expected report is missing *)
  (** one mapping without fields: the validation of the model raises *)
  Theorem C65_mapping_without_fields_refuted d n m k c : is_text d "name" n -> ~ grants_raise d -> assoc "mappings" d = Some (YDict ((k, YDict c) :: m)) -> lacks c "fields" ->
    Forall (fun j => lacks ((k, YDict c) :: m) j) (me_order E) -> (forall j, In j special_names -> exists fs, me_special E j = Ok fs) -> collect_errors E d = Err KeyError.
  Proof.
    intros N G U L R SP. set (mm := (k, YDict c) :: m) in *. pose proof (mappings_outcome E (order_nodup E ORDER) d) as O.
    assert (FR : Forall (free E mm) (me_order E)) by (rewrite Forall_forall in *; intros j I; split; [auto|]; apply SP, (Permutation_in _ ORDER I)).
    assert (US : user d mm) by (left; exact U).
    assert (NS : forall m' j, stops_at E d m' j -> ~ free E m' j -> False).
    { intros m' j (U' & o & o' & X & _) NF. pose proof (user_unique _ _ _ US U') as <-. apply NF. rewrite Forall_forall in FR. apply FR. rewrite X. apply in_app_iff. right. now left. }
    assert (D : exists s, mappings E d = MDone (mm ++ s)).
    { inversion O as [l EN X|ND X|m' j ST T X|m' j ST LK S X|m' j e ST LK S N' A X].
      - destruct EN as (m' & U' & [(s & _ & _ & ->)|(-> & _ & j & ST & _ & S)]); [pose proof (user_unique _ _ _ US U') as <-; exists s; reflexivity|]. destruct (NS _ _ ST (not_free_special E m' j _ S)).
      - destruct (not_dict_no_user d mm ND US).
      - destruct (NS _ _ ST (not_free_taken E m' j T)).
      - destruct (NS _ _ ST (not_free_special E m' j _ S)).
      - destruct (NS _ _ ST (not_free_special E m' j _ S)). }
    destruct D as [s D]. unfold collect_errors, get at 1. unfold is_text in N. rewrite N. destruct (ok_or_fails (grants_errors d)) as [[g G']|G']; [|apply grants_fails in G'; contradiction]. rewrite G'. cbn [bind].
    assert (M : mapping_errors E d = Err KeyError).
    { unfold mapping_errors. rewrite D. assert (X : snd (wall (map_errors E) (mm ++ s)) = Some KeyError).
      { apply all_some. exists [], (k, YDict c), (m ++ s). split; [reflexivity|]. split; [intros y e []|]. exists c. split; [reflexivity|]. left. auto. }
      destruct (wall (map_errors E) (mm ++ s)) as [es o]. cbn [snd] in X. subst o. reflexivity. }
    rewrite M. reflexivity.
  Qed.
  (** an empty list of access grants is reported *)
  Theorem C65_no_grants_reported_refuted d n es : is_text d "name" n -> assoc "access_grants" d = Some (YList []) -> collect_errors E d = Ok es -> In MGrantsDicts es.
  Proof. intros N A H. destruct (collect_split d es n H N) as (g & m & G & M & X). apply X. right. left. apply (grants_iff d g _ G). exists []. split; [exact A|]. intros v []. Qed.
  (** one text among the allowed values of a grant hides the values that are not *)
  Theorem C65_mixed_values_refuted d n es l g m t : is_text d "name" n -> collect_errors E d = Ok es -> assoc "access_grants" d = Some (YList l) ->
    In (YDict g) l -> is_text g "name" m -> element g "allowed_values" (YStr t) -> (forall g', In (YDict g') l -> is_text g' "name" m -> g' = g) -> ~ In (MGrant m GValuesText) es.
  Proof.
    intros N H A I NM (vs & V & VI) ONE IN. destruct (C65_sound d n es _ N H IN) as [[[]|[(g' & CH & _ & NM' & (vs' & V' & K))|[]]]|[X _]]; [|discriminate X].
    destruct CH as [(l' & A' & I') _]. assert (l' = l) by congruence. subst l'. rewrite (ONE g' I' NM') in V'. assert (vs' = vs) by congruence. subst vs'. apply (K _ VI). now exists t.
  Qed.
  (** one grant that is not a mapping, beside one that is, makes the validation raise *)
  Theorem C65_grant_not_mapping_raises_refuted d g v : element d "access_grants" (YDict g) -> element d "access_grants" v -> ~ Dict v -> ~ Str v -> ~ List_ v -> fails (collect_errors E d).
  Proof. intros G V D S L. apply C65_raises. right. left. exists v. split; [split; [exact V|eauto]|]. auto. Qed.
  (** a mapped field that is ambiguous hides the errors of the later mappings *)
  Theorem C65_later_mappings_refuted d n es l1 x l2 : is_text d "name" n -> collect_errors E d = Ok es -> entries E d (l1 ++ x :: l2) ->
    (forall y e, In y l1 -> ~ entry_fails E y e) -> entry_fails E x QueryError ->
    In MMapQuery es /\ forall m r, In (MMap m r) es -> exists v, In (m, v) (l1 ++ [x]) /\ map_breaks E m v r.
  Proof.
    intros N H EN A B. destruct (collect_split d es n H N) as (g & m & G & M & X). split.
    - apply X. right. right. apply (maps_query E (order_nodup E ORDER) d m M). exists (l1 ++ x :: l2). split; [exact EN|]. exists l1, x, l2. auto.
    - intros j r I. apply X in I. destruct I as [I|[I|I]].
      + apply model_part_iff in I. destruct I.
      + apply (grants_iff d g _ G) in I. destruct I.
      + unfold mapping_errors in M. pose proof (mappings_outcome E (order_nodup E ORDER) d) as O. inversion O as [l EN' Y|ND Y|m' k ST T Y|m' k ST LK S Y|m' k e ST LK S N' AA Y]; rewrite <- Y in M.
        * pose proof (entries_unique E d _ _ EN EN') as <-. assert (W : snd (wall (map_errors E) (l1 ++ x :: l2)) = Some QueryError) by (apply all_some; exists l1, x, l2; auto). destruct x as [xn xv].
          assert (F : snd (map_errors E (xn, xv)) = Some QueryError) by (apply entry_some; exact B). pose proof (fun q => wall_sub (map_errors E) l1 (xn, xv) l2 q QueryError F) as SUB.
          destruct (wall (map_errors E) (l1 ++ (xn, xv) :: l2)) as [es' o]. cbn [fst snd] in W, SUB. subst o. apply ok_inj in M. subst m. apply in_app_iff in I. destruct I as [I|[I|[]]]; [|discriminate I].
          destruct (SUB _ I) as ([yn yv] & J & K). apply entry_sound in K. destruct K as (r' & Z & K). injection Z as -> ->. eauto.
        * destruct (fault_raises E d PNotDict); [discriminate M|]. apply ok_inj in M. subst m. destruct I as [I|[]]. discriminate I.
        * destruct (fault_raises E d (PReserved k)); [discriminate M|]. apply ok_inj in M. subst m. destruct I as [I|[]]. discriminate I.
        * destruct (fault_raises E d PProject); [discriminate M|]. apply ok_inj in M. subst m. destruct I as [I|[]]. discriminate I.
        * discriminate M.
  Qed.
  (** a name that is not a text makes the validation raise *)
  Theorem C65_name_raises_refuted d v : assoc "name" d = Some v -> ~ Str v -> fails (collect_errors E d).
  Proof. intros A S. apply C65_raises. left. intros n N. unfold is_text in N. rewrite A in N. injection N as ->. apply S. now exists n. Qed.
  (** no error depends on the label of a mapping *)
  Theorem C65_mapping_label_refuted m c w r : map_breaks E m (YDict (("label", w) :: c)) r <-> map_breaks E m (YDict c) r.
  Proof.
    unfold map_breaks, value, element. destruct r; try reflexivity.
    1: split; intros H; exfalso; apply H; eexists; reflexivity.
    all: split; intros (c' & X & H); injection X as <-; eexists; (split; [reflexivity|]); cbn [assoc String.eqb Ascii.eqb Bool.eqb map fst In] in *; try exact H.
    - destruct H as [[<-|H] K]; [exfalso; apply K; cbn; auto 8|auto].
    - destruct H. auto.
  Qed.
End C65.
Print Assumptions C65_sound.
Print Assumptions C65_exact.
Print Assumptions C65_clean.
Print Assumptions C65_raises.
Print Assumptions C65_reserved.
Print Assumptions C65_mapping_without_fields_refuted.
Print Assumptions C65_no_grants_reported_refuted.
Print Assumptions C65_mixed_values_refuted.
Print Assumptions C65_grant_not_mapping_raises_refuted.
Print Assumptions C65_later_mappings_refuted.
Print Assumptions C65_name_raises_refuted.
Print Assumptions C65_mapping_label_refuted.

(** *** Cases *)
Definition core : menv := {|
  me_order := ["week"; "date"; "month"; "year"; "quarter"; "day_of_year"; "week_of_year"; "month_of_year"];
  me_special := fun k => Ok [("orders.created_" ++ k)%string];
  me_reraise := false;
  me_get_field := fun f => if mem f ["customer_id"] then Err QueryError else if mem f ["orders.gone"] then Err AccessDenied else Ok tt;
  me_timezone := fun v => match v with YStr s => String.eqb s "America/New_York" | _ => false end;
  me_str := fun _ => "" |}.
Example C65_order_case : Permutation (me_order core) special_names.
Proof. apply NoDup_Permutation; [repeat constructor; cbn; intuition congruence|repeat constructor; cbn; intuition congruence|]. intros k. apply same_members. reflexivity. Qed.
Definition fine_model : ydict := [("type", YStr "model"); ("name", YStr "core"); ("connection", YStr "sf"); ("timezone", YStr "America/New_York"); ("week_start_day", YStr "monday");
  ("access_grants", YList [YDict [("name", YStr "finance"); ("user_attribute", YStr "dept"); ("allowed_values", YList [YStr "fin"])]]);
  ("mappings", YDict [("region", YDict [("fields", YList [YStr "orders.region"; YStr "customers.region"]); ("label", YInt 1)])])].
Example C65_fine_case : collect_errors core fine_model = Ok [].
Proof. vm_compute. reflexivity. Qed.
Definition faulty_model : ydict := [("name", YStr "co re"); ("connection", YInt 1); ("timezone", YStr "Mars"); ("week_start_day", YStr "Monday"); ("fiscal_month_offset", YStr "1");
  ("access_grants", YList [YDict [("name", YStr "finance"); ("user_attribute", YInt 1); ("allowed_values", YList [YInt 1; YInt 2]); ("x", YNull)]; YDict [("name", YStr "b")]; YStr "c"]);
  ("mappings", YDict [("region", YDict [("fields", YList [YStr "orders.gone"]); ("link", YInt 1); ("y", YNull)]); ("no", YNull)]); ("colour", YNull)].
Example C65_faulty_case : collect_errors core faulty_model = Ok [MName; MConnection; MOffset; MWeek; MTimezone; MGrant "finance" GAttribute; MGrant "finance" GValuesText; MGrant "finance" (GKey "x"); MGrantMissing "user_attribute"; MGrantMissing "name";
  MMap "region" PLink; MMap "region" (PField "orders.gone"); MMap "region" (PKey "y"); MMap "no" PValue; MProperty "colour"].
Proof. vm_compute. reflexivity. Qed.
Example C65_reserved_case : collect_errors core [("name", YStr "core"); ("connection", YStr "sf"); ("mappings", YDict [("month", YDict []); ("date", YDict [])])] = Ok [MMapFault (PReserved "date")].
Proof. vm_compute. reflexivity. Qed.
Example C65_no_fields_case : collect_errors core [("name", YStr "core"); ("connection", YStr "sf"); ("mappings", YDict [("region", YDict [("group_label", YStr "a")])])] = Err KeyError.
Proof. vm_compute. reflexivity. Qed.
Example C65_no_fields_free : Forall (fun j => lacks [("region", YDict [("group_label", YStr "a")])] j) (me_order core) /\ forall j, In j special_names -> exists fs, me_special core j = Ok fs.
Proof. split; [repeat constructor|]. intros j _. eexists. reflexivity. Qed.
Example C65_mixed_case : collect_errors core [("name", YStr "core"); ("connection", YStr "sf"); ("access_grants", YList [YDict [("name", YStr "f"); ("user_attribute", YStr "d"); ("allowed_values", YList [YInt 1; YStr "a"])]])] = Ok [].
Proof. vm_compute. reflexivity. Qed.
Example C65_not_mapping_case : collect_errors core [("name", YStr "core"); ("connection", YStr "sf"); ("access_grants", YList [YDict [("name", YStr "f"); ("user_attribute", YStr "d"); ("allowed_values", YList [YStr "a"])]; YNull])] = Err TypeError.
Proof. vm_compute. reflexivity. Qed.
Definition two_maps : ydict := [("name", YStr "core"); ("connection", YStr "sf"); ("mappings", YDict [("a", YDict [("fields", YList [YStr "orders.gone"; YStr "customer_id"])]); ("b", YNull)])].
Example C65_later_case : collect_errors core two_maps = Ok [MMap "a" (PField "orders.gone"); MMapQuery].
Proof. vm_compute. reflexivity. Qed.
Example C65_later_entries : exists s, entries core two_maps ([] ++ ("a", YDict [("fields", YList [YStr "orders.gone"; YStr "customer_id"])]) :: s) /\ In ("b", YNull) s /\ entry_fails core ("a", YDict [("fields", YList [YStr "orders.gone"; YStr "customer_id"])]) QueryError.
Proof.
  exists (("b", YNull) :: map (fun k => (k, special_value k [("orders.created_" ++ k)%string])) (me_order core)). split; [|split; [now left|]].
  - eexists. split; [left; reflexivity|]. left. exists (map (fun k => (k, special_value k [("orders.created_" ++ k)%string])) (me_order core)). split; [repeat constructor|]. split; [|reflexivity]. repeat constructor; eexists; split; reflexivity.
  - eexists. split; [reflexivity|]. right. exists [YStr "orders.gone"], (YStr "customer_id"), []. split; [reflexivity|]. split.
    + intros g e [<-|[]] [[X _]|(f & X & Y & Z)]; [apply X; eexists; reflexivity|]. injection X as <-. cbn in Y. injection Y as <-. apply Z. reflexivity.
    + right. exists "customer_id". split; [reflexivity|]. split; [reflexivity|discriminate].
Qed.
Example C65_text_grant_case : collect_errors core [("name", YStr "core"); ("connection", YStr "sf"); ("access_grants", YList [YDict [("name", YStr "f"); ("user_attribute", YStr "d"); ("allowed_values", YList [YStr "a"])]; YStr "my_name"])] = Err AttributeError.
Proof. vm_compute. reflexivity. Qed.
