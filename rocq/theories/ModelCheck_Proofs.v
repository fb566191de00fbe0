(** Lemmas: the parts of the check of a model against their specification. *)
From Coq Require Import List String ZArith Bool Permutation.
From Verif Require Import PyBase PyStr PyRefs PyReplace PyList Names_Model Names_Props FieldCheck_Model FieldCheck_Spec FieldCheck_Proofs ViewCheck_Model ViewCheck_Spec ViewCheck_Proofs ViewCheck_Raises ModelCheck_Model ModelCheck_Spec.
Import ListNotations.
Local Open Scope string_scope.
Local Open Scope list_scope.

(** *** Errors written before an exception *)
Lemma wseq_none a b : snd (wseq a b) = None <-> snd a = None /\ snd b = None.
Proof. destruct a as [l [e|]]; cbn; intuition congruence. Qed.
Lemma wseq_in a b r : snd a = None -> (In r (fst (wseq a b)) <-> In r (fst a) \/ In r (fst b)).
Proof. destruct a as [l [e|]]; cbn; [discriminate|]. intros _. rewrite in_app_iff. reflexivity. Qed.
Lemma wseq_some a b e : snd (wseq a b) = Some e <-> snd a = Some e \/ snd a = None /\ snd b = Some e.
Proof. destruct a as [l [x|]]; cbn; intuition congruence. Qed.
Lemma wseq_sub a b r : In r (fst (wseq a b)) -> In r (fst a) \/ In r (fst b).
Proof. destruct a as [l [x|]]; cbn; auto. rewrite in_app_iff. auto. Qed.
Lemma wall_none {A} (f : A -> wr) l : snd (wall f l) = None <-> forall x, In x l -> snd (f x) = None.
Proof.
  induction l as [|a l IH]; cbn [wall]; [split; [intros _ x []|reflexivity]|]. rewrite wseq_none, IH. split.
  - intros [H K] x [<-|I]; auto.
  - intros H. split; [apply H; now left|]. intros x I. apply H. now right.
Qed.
Lemma wall_in {A} (f : A -> wr) l r : snd (wall f l) = None -> (In r (fst (wall f l)) <-> exists x, In x l /\ In r (fst (f x))).
Proof.
  induction l as [|a l IH]; cbn [wall]; intros H; [split; [intros []|intros (x & [] & _)]|]. apply wseq_none in H. destruct H as [H K]. rewrite (wseq_in _ _ _ H), (IH K). split.
  - intros [J|(x & I & J)]; [exists a; split; [now left|exact J]|exists x; split; [now right|exact J]].
  - intros (x & [<-|I] & J); [now left|right; eauto].
Qed.
Lemma wall_some {A} (f : A -> wr) l e : snd (wall f l) = Some e <-> exists l1 x l2, l = l1 ++ x :: l2 /\ (forall y, In y l1 -> snd (f y) = None) /\ snd (f x) = Some e.
Proof.
  induction l as [|a l IH]; cbn [wall]; [split; [discriminate|intros (l1 & x & l2 & X & _); destruct l1; discriminate X]|]. rewrite wseq_some, IH. split.
  - intros [H|[H (l1 & x & l2 & -> & K & J)]].
    + exists [], a, l. split; [reflexivity|]. split; [intros y []|exact H].
    + exists (a :: l1), x, l2. split; [reflexivity|]. split; [|exact J]. intros y [<-|I]; auto.
  - intros (l1 & x & l2 & X & K & J). destruct l1 as [|b l1]; cbn [app] in X; injection X as -> ->; [left; exact J|]. right. split; [apply K; now left|]. exists l1, x, l2. split; [reflexivity|]. split; [|exact J]. intros y I. apply K. now right.
Qed.
Lemma wall_sub {A} (f : A -> wr) l1 x l2 r e : snd (f x) = Some e -> In r (fst (wall f (l1 ++ x :: l2))) -> exists y, In y (l1 ++ [x]) /\ In r (fst (f y)).
Proof.
  intros X. induction l1 as [|a l1 IH]; cbn [app wall]; intros I.
  - destruct (f x) as [k o] eqn:F. cbn [snd] in X. subst o. cbn in I. exists x. split; [now left|]. rewrite F. exact I.
  - apply wseq_sub in I. destruct I as [I|I]; [exists a; split; [now left|exact I]|]. destruct (IH I) as (y & J & K). exists y. split; [now right|exact K].
Qed.
Lemma no_some {A} (o : option A) : (forall e, o <> Some e) <-> o = None.
Proof. destruct o as [a|]; split; congruence. Qed.

Lemma forallb_not (p : yv -> bool) (P : yv -> Prop) l : (forall v, p v = false <-> ~ P v) -> (forallb (fun v => negb (p v)) l = true <-> forall v, In v l -> ~ P v).
Proof. intros H. rewrite forallb_forall. split; intros K v I; [apply H|apply negb_true_iff, H]; auto. apply negb_true_iff. auto. Qed.
Lemma same_str s v : same (YStr s) v = true <-> v = YStr s.
Proof. destruct v as [|[]| | |t| |]; cbn; try (split; discriminate). rewrite String.eqb_eq. split; congruence. Qed.

Section Parts.
  Variable E : menv.
  Variable n : string.

  (** *** Plain keys *)
  Definition model_part (d : ydict) : list mrule :=
    say (negb (valid_name n)) MName
    ++ say (bad "connection" is_str d) MConnection
    ++ say (bad "label" is_str d) MLabel
    ++ say (bad "fiscal_month_offset" is_int d) MOffset
    ++ say (has "week_start_day" d && negb (str_in (get "week_start_day" d) week_days)) MWeek
    ++ say (bad "timezone" (me_timezone E) d) MTimezone
    ++ say (bad "default_convert_tz" is_bool d) MConvert
    ++ map MProperty (List.filter (fun k => negb (mem k (model_internal ++ model_keys))) (map fst d)).
  Lemma same_model_keys k : In k (model_internal ++ model_keys) <-> In k known_model_keys.
  Proof. apply same_members. reflexivity. Qed.
  Lemma tz_iff d : bad "timezone" (me_timezone E) d = true <-> value d "timezone" (fun v => me_timezone E v = false).
  Proof. unfold bad, value, get. destruct (assoc "timezone" d) as [v|]; [rewrite negb_true_iff; split; [eauto|intros (w & X & H); congruence]|]. split; [discriminate|]. intros (v & X & _). discriminate X. Qed.
  Lemma model_part_iff d r : In r (model_part d) <-> plain_model_breaks E n d r.
  Proof.
    unfold model_part. rewrite !in_app_iff, !in_say, in_keys_of, negb_true_iff, proper_not, has_oneof, tz_iff.
    rewrite !(bad_iff _ is_str Str) by apply str_iff. rewrite !(bad_iff _ is_bool Bool_) by apply bool_iff. rewrite !(bad_iff _ is_int Int) by apply int_iff. change week_days with days.
    unfold plain_model_breaks. split.
    - intros H. open_or H. all: try (subst r; assumption). subst r. split; [assumption|]. rewrite <- same_model_keys. exact H.
    - destruct r; intros H; try (exfalso; exact H); try solve [pick]. do 7 right. rewrite <- same_model_keys in H. destruct H. eauto.
  Qed.

  (** *** Access grants *)
  Lemma one_grant g out r : grant_errors (YDict g) = Ok out ->
    (In r out <-> match r with MGrantMissing k => first_missing g k | MGrant m x => whole g /\ is_text g "name" m /\ grant_breaks m g x | _ => False end).
  Proof.
    unfold grant_errors, first_missing, whole. destruct (has "name" g) eqn:A; cbn [negb]; [apply has_true in A|apply has_false in A].
    2:{ intros H. apply ok_inj in H. subst out. cbn [In]. split; [intros [<-|[]]; auto|]. destruct r; try (intros []; fail); [|intros [[X _] _]; contradiction]. intros [[_ ->]|[[X _]|[X _]]]; auto; contradiction. }
    destruct (has "user_attribute" g) eqn:B; cbn [negb]; [apply has_true in B|apply has_false in B].
    2:{ intros H. apply ok_inj in H. subst out. cbn [In]. split; [intros [<-|[]]; auto|]. destruct r; try (intros []; fail); [|intros [[_ [X _]] _]; contradiction]. intros [[X _]|[[_ [_ ->]]|[_ [X _]]]]; auto; contradiction. }
    destruct (has "allowed_values" g) eqn:C; cbn [negb]; [apply has_true in C|apply has_false in C].
    2:{ intros H. apply ok_inj in H. subst out. cbn [In]. split; [intros [<-|[]]; auto 6|]. destruct r; try (intros []; fail); [|intros [[_ [_ X]] _]; contradiction]. intros [[X _]|[[_ [X _]]|[_ [_ [_ ->]]]]]; auto; contradiction. }
    unfold get at 1. destruct (assoc "name" g) as [v|] eqn:N; [|discriminate]. destruct v as [| | | |m| |]; try discriminate. intros H. apply ok_inj in H. subst out. rewrite in_map_iff.
    assert (IN : forall x, In x (say (negb (valid_name m)) GName ++ say (bad "user_attribute" is_str g) GAttribute
        ++ match get "allowed_values" g with Some (YList l) => say (forallb (fun v => negb (is_str v)) l) GValuesText | _ => [GValues] end
        ++ map GKey (List.filter (fun k => negb (mem k grant_keys)) (map fst g))) <-> grant_breaks m g x).
    { intros x. rewrite !in_app_iff, !in_say, in_keys_of, negb_true_iff, proper_not. rewrite (bad_iff _ is_str Str) by apply str_iff.
      assert (V : In x match get "allowed_values" g with Some (YList l) => say (forallb (fun v => negb (is_str v)) l) GValuesText | _ => [GValues] end <->
                  x = GValues /\ value g "allowed_values" (fun v => ~ List_ v) \/ x = GValuesText /\ exists l, assoc "allowed_values" g = Some (YList l) /\ forall v, In v l -> ~ Str v).
      { unfold get, value. unfold lacks in C. destruct (assoc "allowed_values" g) as [w|]; [|contradiction]. destruct (is_list w) eqn:L.
        - destruct w as [| | | | |l|]; try discriminate L. rewrite in_say, (forallb_not is_str Str) by apply str_iff. split.
          + intros [H ->]. right. split; [reflexivity|]. eauto.
          + intros [[_ (w & X & Y)]|[-> (l' & X & H)]]; injection X as <-; [exfalso; apply Y; now exists l|auto].
        - assert (O : match w with YList l => say (forallb (fun v => negb (is_str v)) l) GValuesText | _ => [GValues] end = [GValues]) by (destruct w; try discriminate L; reflexivity). rewrite O. cbn [In]. apply list_iff in L. split.
          + intros [<-|[]]. left. split; [reflexivity|]. eauto.
          + intros [[-> _]|[_ (l & X & _)]]; [auto|]. injection X as ->. exfalso. apply L. now exists l. }
      rewrite V. unfold grant_breaks. split.
      - intros [[H ->]|[[H ->]|[[[-> H]|[-> H]]|(k & -> & I & K)]]]; try exact H. cbn [grant_keys In] in K. split; [exact I|]. split; [intros ->; tauto|]. split; intros ->; tauto.
      - destruct x; intros H; try tauto. right. right. right. exists k. split; [reflexivity|]. split; [apply H|]. cbn [grant_keys In]. intros [<-|[<-|[<-|[]]]]; tauto. }
    split.
    - intros (x & <- & I). apply IN in I. auto.
    - destruct r; try (intros []; fail).
      + intros [[X _]|[[_ [X _]]|[_ [_ [X _]]]]]; try contradiction.
      + intros (_ & X & H). unfold is_text in X. assert (name = m) by congruence. subst name. exists r. split; [reflexivity|]. apply IN. exact H.
  Qed.
  Lemma grant_fails v : fails (grant_errors v) <->
    (~ Dict v /\ ~ Str v /\ ~ List_ v) \/ (exists s, v = YStr s /\ contains "name" s = true) \/ (exists l, v = YList l /\ In (YStr "name") l) \/ exists g, v = YDict g /\ whole g /\ value g "name" (fun w => ~ Str w).
  Proof.
    assert (NL : forall l, existsb (same (YStr "name")) l = true <-> In (YStr "name") l).
    { intros l. rewrite existsb_exists. split; [intros (x & I & X); apply same_str in X; subst x; exact I|]. intros I. exists (YStr "name"). split; [exact I|reflexivity]. }
    destruct v as [|b|z|b|s|l|g]; cbn [grant_errors].
    1-4: rewrite fails_err; split; [intros _; left; repeat split; intros [x X]; discriminate X|auto].
    - destruct (contains "name" s) eqn:C; [rewrite fails_err; split; [intros _; eauto|auto]|]. rewrite fails_ok. split; [intros []|].
      intros [(_ & X & _)|[(t & X & Y)|[(l & X & _)|(g & X & _)]]]; try discriminate X; [apply X; now exists s|]. injection X as <-. congruence.
    - destruct (existsb (same (YStr "name")) l) eqn:C; [rewrite fails_err; apply NL in C; split; [intros _; right; right; left; eauto|auto]|]. rewrite fails_ok. split; [intros []|].
      intros [(_ & _ & X)|[(t & X & Y)|[(l' & X & Y)|(g & X & _)]]]; try discriminate X; [apply X; now exists l|]. injection X as <-. apply NL in Y. congruence.
    - assert (R : ((~ Dict (YDict g) /\ ~ Str (YDict g) /\ ~ List_ (YDict g)) \/ (exists s, YDict g = YStr s /\ contains "name" s = true) \/ (exists l, YDict g = YList l /\ In (YStr "name") l) \/ exists g', YDict g = YDict g' /\ whole g' /\ value g' "name" (fun w => ~ Str w))
                  <-> whole g /\ value g "name" (fun w => ~ Str w)).
      { split; [|intros H; right; right; right; eauto]. intros [(X & _)|[(t & X & Y)|[(l' & X & Y)|(g' & X & H)]]]; try discriminate X; [exfalso; apply X; now exists g|]. injection X as <-. exact H. }
      rewrite R. clear R. unfold whole. destruct (has "name" g) eqn:A; cbn [negb]; [apply has_true in A|apply has_false in A; rewrite fails_ok; tauto].
      destruct (has "user_attribute" g) eqn:B; cbn [negb]; [apply has_true in B|apply has_false in B; rewrite fails_ok; tauto].
      destruct (has "allowed_values" g) eqn:C; cbn [negb]; [apply has_true in C|apply has_false in C; rewrite fails_ok; tauto].
      unfold get at 1. unfold value. pose proof A as A2. unfold lacks in A. destruct (assoc "name" g) as [v|]; [|contradiction]. destruct v as [| | | |m| |].
      5:{ rewrite fails_ok. split; [intros []|]. intros (_ & w & X & H). injection X as <-. apply H. now exists m. }
      all: rewrite fails_err; split; [intros _|auto]; split; [repeat split; assumption|]; eexists; split; [reflexivity|]; intros [? X]; discriminate X.
  Qed.
  Lemma any_dict l : forallb (fun v => negb (is_dict v)) l = false <-> exists g, In (YDict g) l.
  Proof.
    induction l as [|a l IH]; cbn [forallb]; [split; [discriminate|intros (g & [])]|]. destruct a as [| | | | | |g]; cbn [is_dict negb andb].
    7: split; [intros _; exists g; now left|reflexivity].
    all: rewrite IH; split; intros (g & I); exists g; [now right|destruct I as [X|I]; [discriminate X|exact I]].
  Qed.
  Lemma grants_iff d out r : grants_errors d = Ok out -> (In r out <-> grants_break d r).
  Proof.
    unfold grants_errors, grants_break, checked_grant, element, value, get. destruct (assoc "access_grants" d) as [v|].
    2:{ intros H. apply ok_inj in H. subst out. split; [intros []|]. destruct r; try (intros []; fail).
        - intros (v & X & _). discriminate X.
        - intros (l & X & _). discriminate X.
        - intros (v & ((l & X & _) & _) & _). discriminate X.
        - intros (g & ((l & X & _) & _) & _). discriminate X. }
    destruct (is_list v) eqn:L.
    2:{ intros H. assert (O : out = [MGrantsList]) by (destruct v; try discriminate L; apply ok_inj in H; auto). clear H. subst out. pose proof L as L'. apply list_iff in L'. cbn [In]. split; [intros [<-|[]]; eauto|].
        destruct r; try (intros []; fail); [auto| | |]; intros H; exfalso; apply L'.
        - destruct H as (l & X & _). injection X as ->. now exists l.
        - destruct H as (w & ((l & X & _) & _) & _). injection X as ->. now exists l.
        - destruct H as (w & ((l & X & _) & _) & _). injection X as ->. now exists l. }
    destruct v as [| | | | |l|]; try discriminate L. destruct (forallb (fun v => negb (is_dict v)) l) eqn:F.
    - intros H. apply ok_inj in H. subst out. pose proof (proj1 (forallb_not is_dict Dict l dict_iff) F) as F'. cbn [In]. split; [intros [<-|[]]; eauto|].
      destruct r; try (intros []; fail); [|auto| |].
      + intros (w & X & Y). injection X as <-. exfalso. apply Y. now exists l.
      + intros (w & (_ & g & l' & X & I) & _). injection X as <-. exfalso. apply (F' _ I). now exists g.
      + intros (w & (_ & g & l' & X & I) & _). injection X as <-. exfalso. apply (F' _ I). now exists g.
    - intros H. rewrite (concatM_in _ _ _ r H). apply any_dict in F. destruct F as [g0 G0].
      assert (CH : exists g, exists l0, Some (YList l) = Some (YList l0) /\ In (YDict g) l0) by eauto. split.
      + intros (v & ys & I & Y & J). destruct v as [| | | |s|l'|g]; try discriminate Y.
        * cbn [grant_errors] in Y. destruct (contains "name" s) eqn:C; [discriminate Y|]. apply ok_inj in Y. subst ys. destruct J as [<-|[]]. exists (YStr s). split; [split; [eauto|exact CH]|]. right. split; [reflexivity|]. left. eauto.
        * cbn [grant_errors] in Y. destruct (existsb (same (YStr "name")) l') eqn:C; [discriminate Y|]. apply ok_inj in Y. subst ys. destruct J as [<-|[]]. exists (YList l'). split; [split; [eauto|exact CH]|]. right. split; [reflexivity|]. right.
          exists l'. split; [reflexivity|]. intros I'. assert (existsb (same (YStr "name")) l' = true) by (apply existsb_exists; exists (YStr "name"); split; [exact I'|reflexivity]). congruence.
        * apply (one_grant g ys r Y) in J. destruct r; try (destruct J; fail).
          -- exists (YDict g). split; [split; [eauto|exact CH]|]. left. eauto.
          -- exists g. split; [split; [eauto|exact CH]|]. exact J.
      + assert (G : forall v, In v l -> exists ys, grant_errors v = Ok ys) by (apply (concatM_ok_all _ _ _ H)). destruct r; try (intros []; fail).
        * intros (w & X & Y). injection X as <-. exfalso. apply Y. now exists l.
        * intros (l' & X & K). injection X as <-. exfalso. apply (K _ G0). now exists g0.
        * intros (v & ((l' & X & I) & _) & K). injection X as <-. destruct (G v I) as [ys Y]. exists v, ys. split; [exact I|]. split; [exact Y|]. destruct K as [(g & -> & K)|[-> [(s & -> & C)|(l' & -> & C)]]].
          -- apply (one_grant g ys _ Y). exact K.
          -- cbn [grant_errors] in Y. rewrite C in Y. apply ok_inj in Y. subst ys. now left.
          -- cbn [grant_errors] in Y. destruct (existsb (same (YStr "name")) l'); [discriminate Y|]. apply ok_inj in Y. subst ys. now left.
        * intros (g & ((l' & X & I) & _) & K). injection X as <-. destruct (G (YDict g) I) as [ys Y]. exists (YDict g), ys. split; [exact I|]. split; [exact Y|]. apply (one_grant g ys _ Y). exact K.
  Qed.
  Lemma grants_fails d : fails (grants_errors d) <-> grants_raise d.
  Proof.
    unfold grants_errors, grants_raise, checked_grant, element, get. destruct (assoc "access_grants" d) as [v|].
    2:{ rewrite fails_ok. split; [intros []|]. intros (v & ((l & X & _) & _) & _). discriminate X. }
    destruct v as [| | | | |l|]. 1-5,7: rewrite fails_ok; split; [intros []|]; intros (v & ((l' & X & _) & _) & _); discriminate X.
    destruct (forallb (fun v => negb (is_dict v)) l) eqn:F.
    - rewrite fails_ok. split; [intros []|]. intros (v & (_ & g & l' & X & I) & _). injection X as <-. pose proof (proj1 (forallb_not is_dict Dict l dict_iff) F _ I) as K. apply K. now exists g.
    - apply any_dict in F. destruct F as [g0 G0]. rewrite fails_concat. split.
      + intros (v & I & H). exists v. split; [split; [eauto|exists g0, l; auto]|]. apply grant_fails. exact H.
      + intros (v & ((l' & X & I) & _) & H). injection X as <-. exists v. split; [exact I|]. apply grant_fails. exact H.
  Qed.

  (** *** Mappings *)
  Hypothesis OR : NoDup (me_order E).
  Lemma lacks_app m k v j : lacks (m ++ [(k, v)]) j <-> lacks m j /\ j <> k.
  Proof.
    unfold lacks. induction m as [|[a b] m IH]; cbn [app assoc].
    - destruct (String.eqb_spec j k); intuition congruence.
    - destruct (String.eqb j a); [split; [discriminate|intros [X _]; discriminate X]|exact IH].
  Qed.
  Lemma free_app m k v o : Forall (fun j => j <> k) o -> (Forall (free E (m ++ [(k, v)])) o <-> Forall (free E m) o).
  Proof. intros N. rewrite !Forall_forall in *. split; intros H j I; destruct (H j I) as [A B]; split; auto; [apply lacks_app in A; apply A|apply lacks_app; auto]. Qed.
  Lemma specials_iff order : NoDup order -> forall m,
    match specials E order m with
    | MDone l => exists s, Forall (fun k => lacks m k) order /\ Forall2 (special_entry E) order s /\ l = m ++ s
    | MFault (PReserved k) => exists o o', order = o ++ k :: o' /\ Forall (free E m) o /\ ~ lacks m k
    | MFault PProject => exists o k o', order = o ++ k :: o' /\ Forall (free E m) o /\ lacks m k /\ me_special E k = Err QueryError
    | MFault PNotDict => False
    | MRaise e => exists o k o', order = o ++ k :: o' /\ Forall (free E m) o /\ lacks m k /\ me_special E k = Err e /\ e <> QueryError
    end.
  Proof.
    induction order as [|k r IH]; intros ND m; cbn [specials].
    - exists []. split; [constructor|]. split; [constructor|]. symmetry. apply app_nil_r.
    - inversion ND as [|? ? NI ND']. subst. destruct (has k m) eqn:H.
      { exists [], r. split; [reflexivity|]. split; [constructor|]. apply has_true. exact H. }
      apply has_false in H. assert (NK : forall o o' : list string, r = o ++ o' -> Forall (fun j => j <> k) o) by (intros o o' ->; apply Forall_forall; intros j I ->; apply NI; apply in_app_iff; now left).
      destruct (me_special E k) as [fs|e] eqn:SP.
      + assert (FK : free E m k) by (split; [exact H|eauto]). specialize (IH ND' (m ++ [(k, special_value k fs)])). destruct (specials E r (m ++ [(k, special_value k fs)])) as [l|[|j|]|e].
        * destruct IH as (s & A & B & ->). exists ((k, special_value k fs) :: s). split; [constructor; [exact H|]; revert A; apply Forall_impl; intros j X; apply lacks_app in X; apply X|].
          split; [constructor; [exists fs; auto|exact B]|]. rewrite <- app_assoc. reflexivity.
        * destruct IH.
        * destruct IH as (o & o' & -> & A & B). exists (k :: o), o'. split; [reflexivity|]. pose proof (NK o (j :: o') eq_refl) as NO. apply free_app in A; [|exact NO]. split; [constructor; assumption|].
          rewrite lacks_app in B. intros X. apply B. split; [exact X|]. intros ->. apply NI. apply in_app_iff. right. now left.
        * destruct IH as (o & j & o' & -> & A & B & C). exists (k :: o), j, o'. split; [reflexivity|]. pose proof (NK o (j :: o') eq_refl) as NO. apply free_app in A; [|exact NO]. split; [constructor; assumption|]. apply lacks_app in B. split; [apply B|exact C].
        * destruct IH as (o & j & o' & -> & A & B & C). exists (k :: o), j, o'. split; [reflexivity|]. pose proof (NK o (j :: o') eq_refl) as NO. apply free_app in A; [|exact NO]. split; [constructor; assumption|]. apply lacks_app in B. split; [apply B|exact C].
      + assert (X : exists o k0 o', k :: r = o ++ k0 :: o' /\ Forall (free E m) o /\ lacks m k0 /\ me_special E k0 = Err e) by (exists [], k, r; split; [reflexivity|]; split; [constructor|]; auto).
        destruct e; try exact X; destruct X as (o & k0 & o' & X1 & X2 & X3 & X4); exists o, k0, o'; split; try assumption; split; try assumption; split; try assumption; split; try assumption; discriminate.
  Qed.
  (** Only one of the outcomes is possible *)
  Lemma stop_unique d m k m' k' : stops_at E d m k -> ~ free E m k -> stops_at E d m' k' -> ~ free E m' k' -> m = m' /\ k = k'.
  Proof.
    intros (U & o & o' & X & F) N (U' & p & p' & Y & F') N'. assert (M : m = m').
    { destruct U as [U|[U ->]], U' as [U'|[U' ->]]; unfold lacks in *; congruence. }
    subst m'. split; [reflexivity|]. rewrite X in Y. clear X. revert p F' Y. induction F as [|a o A F IH]; intros p F' Y; destruct p as [|b p]; cbn [app] in Y; injection Y as Y1 Y2.
    - exact Y1.
    - subst b. inversion F' as [|? ? G _]. contradiction.
    - subst a. contradiction.
    - inversion F' as [|? ? _ G]. exact (IH p G Y2).
  Qed.
  Lemma stop_done d m k s : stops_at E d m k -> Forall (fun k => lacks m k) (me_order E) -> Forall2 (special_entry E) (me_order E) s -> free E m k.
  Proof.
    intros (_ & o & o' & X & _) L S. assert (I : In k (me_order E)) by (rewrite X; apply in_app_iff; right; now left). split; [rewrite Forall_forall in L; auto|].
    destruct (Forall2_In_l _ _ _ S k I) as (e & _ & fs & H & _). eauto.
  Qed.
  Lemma user_unique d m m' : user d m -> user d m' -> m = m'.
  Proof. intros [U|[U ->]] [U'|[U' ->]]; unfold lacks in *; congruence. Qed.
  Lemma specials_unique o s s' : Forall2 (special_entry E) o s -> Forall2 (special_entry E) o s' -> s = s'.
  Proof. intros H. revert s'. induction H as [|k e o s (fs & A & ->) H IH]; intros s' H'; inversion H' as [|? ? ? ? (fs' & A' & ->) H'']; subst; [reflexivity|]. rewrite (IH _ H''). congruence. Qed.
  Lemma not_free_special m k e : me_special E k = Err e -> ~ free E m k.
  Proof. intros H [_ [fs X]]. congruence. Qed.
  Lemma not_free_taken m k : ~ lacks m k -> ~ free E m k.
  Proof. intros H [X _]. contradiction. Qed.
  Lemma entries_unique d l l' : entries E d l -> entries E d l' -> l = l'.
  Proof.
    intros (m & U & H) (m' & U' & H'). pose proof (user_unique _ _ _ U U') as <-. destruct H as [(s & A & B & ->)|(-> & _ & k & ST & L & SP)], H' as [(s' & A' & B' & ->)|(-> & _ & k' & ST' & L' & SP')].
    - now rewrite (specials_unique _ _ _ B B').
    - exfalso. apply (not_free_special m k' _ SP'). apply (stop_done d m k' s ST' A B).
    - exfalso. apply (not_free_special m k _ SP). apply (stop_done d m k s' ST A' B').
    - reflexivity.
  Qed.
  Inductive outcome_of (d : ydict) : mres -> Prop :=
  | OcDone l : entries E d l -> outcome_of d (MDone l)
  | OcNotDict : value d "mappings" (fun v => ~ Dict v) -> outcome_of d (MFault PNotDict)
  | OcReserved m k : stops_at E d m k -> ~ lacks m k -> outcome_of d (MFault (PReserved k))
  | OcProject m k : stops_at E d m k -> lacks m k -> me_special E k = Err QueryError -> outcome_of d (MFault PProject)
  | OcRaise m k e : stops_at E d m k -> lacks m k -> me_special E k = Err e -> e <> QueryError -> (e = AttributeError -> lacks d "mappings") -> outcome_of d (MRaise e).
  Lemma mappings_outcome d : outcome_of d (mappings E d).
  Proof.
    unfold mappings, get. destruct (assoc "mappings" d) as [v|] eqn:A.
    - destruct (is_dict v) eqn:D.
      + destruct v as [| | | | | |m]; try discriminate D. assert (U : user d m) by (left; exact A). assert (ND : ~ lacks d "mappings") by (unfold lacks; congruence). pose proof (specials_iff (me_order E) OR m) as S. destruct (specials E (me_order E) m) as [l|[|k|]|e].
        * destruct S as (s & X & Y & Z). constructor. exists m. split; [exact U|]. left. eauto.
        * destruct S.
        * destruct S as (o & o' & X & Y & Z). apply (OcReserved d m k); [split; eauto|exact Z].
        * destruct S as (o & k & o' & X & Y & Z & W). apply (OcProject d m k); [split; eauto|exact Z|exact W].
        * destruct S as (o & k & o' & X & Y & Z & W & V). assert (ST : stops_at E d m k) by (split; eauto). destruct e; try (apply (OcRaise d m k _ ST Z W V); discriminate).
          constructor. exists m. split; [exact U|]. right. split; [reflexivity|]. split; [exact ND|]. eauto.
      + assert (O : match v with YDict m => match specials E (me_order E) m with MRaise AttributeError => MDone m | x => x end | _ => MFault PNotDict end = MFault PNotDict) by (destruct v; try discriminate D; reflexivity).
        rewrite O. constructor. exists v. split; [exact A|]. apply dict_iff. exact D.
    - assert (U : user d []) by (right; split; [exact A|reflexivity]). pose proof (specials_iff (me_order E) OR []) as S. destruct (specials E (me_order E) []) as [l|[|k|]|e].
      + destruct S as (s & X & Y & Z). constructor. exists []. split; [exact U|]. left. eauto.
      + destruct S.
      + destruct S as (o & o' & X & Y & Z). exfalso. apply Z. reflexivity.
      + destruct S as (o & k & o' & X & Y & Z & W). apply (OcProject d [] k); [split; eauto|exact Z|exact W].
      + destruct S as (o & k & o' & X & Y & Z & W & V). assert (ST : stops_at E d [] k) by (split; eauto). destruct e; apply (OcRaise d [] k _ ST Z W V); intros _; exact A.
  Qed.
  Lemma not_dict_no_user d m : value d "mappings" (fun v => ~ Dict v) -> user d m -> False.
  Proof. intros (v & X & Y) [U|[U _]]; [|unfold lacks in U; congruence]. rewrite U in X. injection X as <-. apply Y. now exists m. Qed.
  Lemma entries_no_stop d l m k : entries E d l -> stops_at E d m k -> ~ free E m k -> me_special E k = Err AttributeError /\ lacks m k /\ ~ lacks d "mappings".
  Proof.
    intros (m' & U' & H) ST N. pose proof (user_unique _ _ _ U' (proj1 ST)) as ->. destruct H as [(s & A & B & _)|(_ & ND & k' & ST' & L & SP)].
    - exfalso. apply N. exact (stop_done d m k s ST A B).
    - destruct (stop_unique d m k m k' ST N ST' (not_free_special m k' _ SP)) as [_ ->]. auto.
  Qed.

  (** *** One mapping *)
  Lemma field_none v : snd (field_error E n v) = None <-> forall e, ~ field_fails E v e.
  Proof.
    unfold field_fails. destruct v as [| | | |f| |]. 1-4,6-7: split; [discriminate|]; intros H; exfalso; apply (H TypeError); left; split; [intros [? X]; discriminate X|reflexivity].
    cbn [field_error]. destruct (me_get_field E f) as [u|e] eqn:G.
    - split; [|reflexivity]. intros _ e [[X _]|(g & X & Y & _)]; [apply X; now exists f|]. injection X as <-. congruence.
    - split.
      + intros S e' [[X _]|(g & X & Y & N)]; [apply X; now exists f|]. injection X as <-. assert (e' = e) by congruence. subst e'. destruct e; try discriminate S. contradiction.
      + intros H. destruct e; try reflexivity; exfalso; eapply H; right; exists f; split; [reflexivity| |reflexivity| |reflexivity| |reflexivity| |reflexivity| |reflexivity| |reflexivity| |reflexivity| |reflexivity| |reflexivity| |reflexivity| |reflexivity| |reflexivity|]; split; try exact G; discriminate.
  Qed.
  Lemma field_some v e : snd (field_error E n v) = Some e <-> field_fails E v e.
  Proof.
    unfold field_fails. destruct v as [| | | |f| |].
    1-4,6-7: cbn [field_error snd]; split; [intros H; injection H as <-; left; split; [intros [? X]; discriminate X|reflexivity]|]; intros [[_ ->]|(g & X & _)]; [reflexivity|discriminate X].
    cbn [field_error]. split.
    - intros H. right. exists f. split; [reflexivity|]. destruct (me_get_field E f) as [u|x]; [discriminate H|]. destruct x; try discriminate H; injection H as <-; split; try reflexivity; discriminate.
    - intros [[X _]|(g & X & Y & N)]; [exfalso; apply X; now exists f|]. injection X as <-. rewrite Y. destruct e; try reflexivity. contradiction.
  Qed.
  Lemma field_in v r : In r (fst (field_error E n v)) <-> exists f, v = YStr f /\ me_get_field E f = Err AccessDenied /\ r = MMap n (PField f).
  Proof.
    destruct v as [| | | |f| |]; cbn [field_error fst]. 1-4,6-7: split; [intros []|intros (g & X & _); discriminate X].
    split.
    - intros H. exists f. split; [reflexivity|]. destruct (me_get_field E f) as [u|x]; [destruct H|]. destruct x; try (destruct H; fail). destruct H as [<-|[]]. auto.
    - intros (g & X & Y & ->). injection X as <-. rewrite Y. now left.
  Qed.
End Parts.

Section Entries.
  Variable E : menv.
  Lemma entry_some n v e : snd (map_errors E (n, v)) = Some e <-> entry_fails E (n, v) e.
  Proof.
    unfold map_errors, entry_fails. cbn [snd]. rewrite wseq_some. cbn [snd]. destruct (is_dict v) eqn:D.
    2:{ split; [intros [X|[_ X]]; [discriminate X|destruct v; discriminate]|]. intros (c & -> & _). discriminate D. }
    destruct v as [| | | | | |c]; try discriminate D. rewrite !wseq_some. cbn [snd].
    assert (R : (exists c0, YDict c = YDict c0 /\ (lacks c0 "fields" /\ e = KeyError \/ exists l f l', assoc "fields" c0 = Some (YList (l ++ f :: l')) /\ (forall g e', In g l -> ~ field_fails E g e') /\ field_fails E f e))
      <-> lacks c "fields" /\ e = KeyError \/ exists l f l', assoc "fields" c = Some (YList (l ++ f :: l')) /\ (forall g e', In g l -> ~ field_fails E g e') /\ field_fails E f e).
    { split; [intros (c0 & X & H); injection X as <-; exact H|eauto]. }
    rewrite R. clear R. unfold lacks, get. destruct (assoc "fields" c) as [w|].
    2:{ cbn [snd]. split; [intros [X|[_ [X|[_ [X|[_ X]]]]]]; try discriminate X; injection X as <-; auto|]. intros [[_ ->]|(l & f & l' & X & _)]; [auto 8|discriminate X]. }
    destruct (is_list w) eqn:L.
    2:{ split; [intros [X|[_ [X|[_ [X|[_ X]]]]]]; try discriminate X; destruct w; discriminate|]. intros [[X _]|(l & f & l' & X & _)]; [discriminate X|]. injection X as ->. discriminate L. }
    destruct w as [| | | | |l|]; try discriminate L. rewrite wall_some. split.
    - intros [X|[_ [X|[_ [(l1 & f & l2 & -> & A & B)|[_ X]]]]]]; try discriminate X. right. exists l1, f, l2. split; [reflexivity|]. split; [|apply (field_some E n); exact B]. intros g e' I. apply (field_none E n). auto.
    - intros [[X _]|(l1 & f & l2 & X & A & B)]; [discriminate X|]. injection X as ->. right. split; [reflexivity|]. right. split; [reflexivity|]. left. exists l1, f, l2. split; [reflexivity|].
      split; [intros g I; apply (field_none E n); auto|apply (field_some E n); exact B].
  Qed.
  Lemma entry_none n v : snd (map_errors E (n, v)) = None <-> forall e, ~ entry_fails E (n, v) e.
  Proof.
    rewrite <- no_some. split; intros H e K; apply (H e); apply entry_some; exact K.
  Qed.
  Lemma entry_in n v r : snd (map_errors E (n, v)) = None -> (In r (fst (map_errors E (n, v))) <-> exists x, r = MMap n x /\ map_breaks E n v x).
  Proof.
    unfold map_errors. intros H. rewrite wseq_in by reflexivity. apply wseq_none in H. destruct H as [_ H]. cbn [fst]. rewrite in_say, negb_true_iff, proper_not. destruct (is_dict v) eqn:D.
    2:{ pose proof D as D'. apply dict_iff in D'. destruct v as [| | | | | |c]; try discriminate D.
        all: cbn [fst In]; split; [intros [[X ->]|[<-|[]]]; eauto|].
        all: intros (x & -> & B); destruct x; cbn [map_breaks] in B; auto; destruct B as (c & X & _); discriminate X. }
    destruct v as [| | | | | |c]; try discriminate D. rewrite wseq_in by reflexivity. apply wseq_none in H. destruct H as [_ H]. cbn [fst]. apply wseq_none in H. destruct H as [H _].
    rewrite (wseq_in _ _ _ H). cbn [fst]. rewrite !in_app_iff, !in_say, in_keys_of. rewrite !(bad_iff _ is_str Str) by apply str_iff.
    assert (FI : In r (fst match get "fields" c with None => ([], Some KeyError) | Some (YList l) => wall (field_error E n) l | Some _ => ([MMap n PFields], None) end) <->
      r = MMap n PFields /\ value c "fields" (fun w => ~ List_ w) \/ exists f, r = MMap n (PField f) /\ element c "fields" (YStr f) /\ me_get_field E f = Err AccessDenied).
    { revert H. unfold get, value, element. destruct (assoc "fields" c) as [w|]; [|discriminate]. destruct (is_list w) eqn:L.
      - destruct w as [| | | | |l|]; try discriminate L. intros H. rewrite (wall_in _ _ _ H). split.
        + intros (v & I & J). apply field_in in J. destruct J as (f & -> & G & ->). right. exists f. split; [reflexivity|]. split; [eauto|exact G].
        + intros [[_ (w & X & Y)]|(f & -> & (l' & X & I) & G)]; injection X as <-; [exfalso; apply Y; now exists l|]. exists (YStr f). split; [exact I|]. apply field_in. eauto.
      - intros _. assert (O : fst match w with YList l => wall (field_error E n) l | _ => ([MMap n PFields], None) end = [MMap n PFields]) by (destruct w; try discriminate L; reflexivity). rewrite O. apply list_iff in L. cbn [In]. split.
        + intros [<-|[]]. left. split; [reflexivity|]. eauto.
        + intros [[-> _]|(f & _ & (l & X & _) & _)]; [auto|]. injection X as ->. exfalso. apply L. now exists l. }
    rewrite FI. clear FI. split.
    - intros [[X ->]|[[[X ->]|[[X ->]|[X ->]]]|[[[-> X]|(f & -> & X)]|(k & -> & X)]]]; eexists; (split; [reflexivity|]); cbn [map_breaks]; eauto.
    - intros (x & -> & B). destruct x; cbn [map_breaks] in B; [left; auto|exfalso; apply B; now exists c| | | | | |]; right; destruct B as (c' & X & B); injection X as <-; try tauto.
      + right. left. right. eauto.
      + right. right. eauto.
  Qed.
  Lemma entry_sub n v m r : In (MMap m r) (fst (map_errors E (n, v))) -> m = n.
  Proof.
    unfold map_errors. intros H. apply wseq_sub in H. destruct H as [H|H]; [apply in_say in H; destruct H as [_ H]; congruence|]. destruct v as [| | | | | |c]; try (destruct H as [H|[]]; congruence).
    apply wseq_sub in H. destruct H as [H|H]; [cbn [fst] in H; rewrite !in_app_iff, !in_say in H; destruct H as [[_ H]|[[_ H]|[_ H]]]; congruence|].
    apply wseq_sub in H. destruct H as [H|H]; [|cbn [fst] in H; apply in_map_iff in H; destruct H as (k & X & _); congruence].
    destruct (get "fields" c) as [w|]; [|destruct H]. destruct w as [| | | | |l|]; try (destruct H as [H|[]]; congruence). induction l as [|a l IH]; cbn [wall] in H; [destruct H|]. apply wseq_sub in H. destruct H as [H|H]; [|auto].
    apply field_in in H. destruct H as (f & _ & _ & X). congruence.
  Qed.
  Lemma all_some l e : snd (wall (map_errors E) l) = Some e <-> entries_fail E l e.
  Proof.
    rewrite wall_some. unfold entries_fail. split; intros (l1 & [n v] & l2 & -> & A & B); exists l1, (n, v), l2; (split; [reflexivity|]).
    - split; [|apply entry_some; exact B]. intros [m w] e' I. specialize (A _ I). exact (proj1 (entry_none m w) A e').
    - split; [|apply entry_some; exact B]. intros [m w] I. apply entry_none. intros e' K. exact (A _ e' I K).
  Qed.
End Entries.
