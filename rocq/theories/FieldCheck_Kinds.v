(** The checks of dimension groups and measures against their specification. *)
From Coq Require Import List String ZArith Bool Lia.
From Verif Require Import PyBase PyStr PyRefs PyReplace PyList Names_Model Names_Props FieldCheck_Model FieldCheck_Spec FieldCheck_Proofs.
Import ListNotations.
Local Open Scope string_scope.
Local Open Scope list_scope.

Section Kinds.
  Variable E : fenv.
  Variable fuel : nat.
  Variable n : string.

  Ltac spread H := repeat match type of H with _ \/ _ => destruct H as [H|H] end;
      repeat match goal with
             | H : exists _, _ |- _ => destruct H
             | H : _ /\ _ |- _ => destruct H
             | H : _ \/ _ |- _ => destruct H
             | H : ?x = ?y |- _ => match type of x with rule => first [exfalso; exact (clash x y eq_refl H) | injection H as -> | injection H as <- | clear H] end
             end.
  Ltac abstract_values := repeat match goal with
      | |- context [value ?d ?k ?p] => generalize (value d k p); intro
      | |- context [is_text ?d ?k] => generalize (is_text d k); intro
      | |- context [lacks ?d ?k] => generalize (lacks d k); intro
      | |- context [element ?d ?k] => generalize (element d k); intro
      end.

  (** *** Dimension groups *)
  Lemma frames_iff k top none r valid d out x : frames_errors k top none r valid d = Ok out ->
    (In x out <-> (x = top /\ value d k (fun v => ~ List_ v)) \/ (x = none /\ assoc k d = Some (YList [])) \/ (exists v, element d k v /\ ~ OneOf valid v /\ x = r v)).
  Proof.
    unfold frames_errors, get, value, element. destruct (assoc k d) as [v|]; [|discriminate].
    destruct v as [| | | | |[|y l]|]; intros H; apply ok_inj in H; subst out.
    6:{ cbn [In]. split.
        - intros [<-|[]]. auto.
        - intros [(-> & v & X & Y)|[(-> & _)|(v & (l & X & I) & _)]]; [|auto|injection X as <-; destruct I]. injection X as <-. exfalso. apply Y. eexists. reflexivity. }
    6:{ rewrite (in_elements _ (OneOf valid)) by (intros; apply str_in_not). split.
        - intros (v & I & N & ->). right. right. eauto 6.
        - intros [(-> & v & X & Y)|[(-> & X)|(v & (l' & X & I) & N & ->)]]; [|discriminate X|injection X as <-; eauto]. injection X as <-. exfalso. apply Y. eexists. reflexivity. }
    all: cbn [In]; split; [intros [<-|[]]; left; (split; [reflexivity|]); eexists; (split; [reflexivity|]); intros [? X]; discriminate X
                          | intros [(-> & _)|[(-> & X)|(v & (l & X & _) & _)]]; [auto | discriminate X | discriminate X]].
  Qed.
  Lemma side_iff k r d out x : side_errors E fuel n k r d = Ok out ->
    (In x out <-> (x = r /\ ~ value d k Str) \/ (exists s, is_text d k s /\ sql_breaks E n d (clean_case s) x)).
  Proof.
    unfold side_errors. intros H. destruct (sql_side k d) as [v|] eqn:S.
    - destruct v.
      5:{ apply side_text in S. destruct S as (s' & S & ->). rewrite (sql_errors_iff E fuel n d _ _ x H).
          assert (V : value d k Str) by (apply value_str; eauto). split; [eauto|]. intros [(_ & X)|(t & X & Y)]; [contradiction|]. unfold is_text in *. congruence. }
      all: apply ok_inj in H; subst out; assert (V : ~ value d k Str) by (rewrite value_str; intros [s0 X]; apply (proj2 (side_text k d (clean_case s0))) in S || idtac;
             assert (Y : sql_side k d = Some (YStr (clean_case s0))) by (apply side_text; eauto); congruence).
      all: cbn [In]; split; [intros [<-|[]]; auto | intros [(-> & _)|(t & X & _)]; [auto|exfalso; apply V; apply value_str; eauto]].
    - apply ok_inj in H. subst out. assert (V : ~ value d k Str). { rewrite value_str. intros [s0 X]. assert (Y : sql_side k d = Some (YStr (clean_case s0))) by (apply side_text; eauto). congruence. }
      cbn [In]; split; [intros [<-|[]]; auto | intros [(-> & _)|(t & X & _)]; [auto|exfalso; apply V; apply value_str; eauto]].
  Qed.
  Lemma time_sql_iff d out x : time_sql_errors E fuel n d = Ok out ->
    (In x out <-> (x = RTimeSql /\ value d "sql" (fun v => ~ Str v)) \/ (value d "sql" Str /\ own_sql_breaks E n d x)).
  Proof.
    unfold time_sql_errors. intros H. destruct (get "sql" d) as [v|] eqn:G; [|discriminate H]. unfold get in G.
    assert (VV : forall P, value d "sql" P <-> P v). { intros P. unfold value. rewrite G. split; [intros (w & X & Y); congruence|eauto]. }
    rewrite !VV. destruct v.
    5:{ assert (T : is_text d "sql" s) by exact G. rewrite (own_sql_iff E fuel n d s out x T H).
        assert (ST : Str (YStr s)) by (eexists; reflexivity). tauto. }
    all: apply ok_inj in H; subst out; cbn [In].
    all: match goal with |- context [Str ?w] => assert (NS : ~ Str w) by (intros [? X]; discriminate X) end.
    all: intuition congruence.
  Qed.
  Lemma text_once d k s t : is_text d k s -> is_text d k t -> s = t.
  Proof. unfold is_text. congruence. Qed.
  Lemma group_iff d out r : group_errors E fuel n d = Ok out -> (In r out <-> group_breaks E n d r).
  Proof.
    unfold group_errors, ytype. change VALID_TIMEFRAMES with timeframe_names. change VALID_INTERVALS with interval_names. intros H. apply bind_ok in H. destruct H as [t [T H]]. apply ok_inj in H. subst out.
    rewrite !in_app_iff, !in_chk, negb_true_iff, str_in_get_not, (bad_iff _ is_bool Bool_) by apply bool_iff.
    unfold dimension_group_options.
    assert (OR := own_sql_rules E n d r).
    assert (SR := fun s => sql_rules E n d s r).
    destruct (eq_str (get "type" d) "time") eqn:TI.
    - apply eq_str_get in TI. assert (ND : ~ is_text d "type" "duration") by (intros X; assert (Y := text_once _ _ _ _ TI X); discriminate Y).
      apply bind_ok in T. destruct T as [fr [FR T]]. apply bind_ok in T. destruct T as [s [S T]]. apply ok_inj in T. subst t.
      rewrite !in_app_iff, !in_chk, (frames_iff _ _ _ _ _ _ _ r FR), (time_sql_iff _ _ r S), has_true, has_oneof, !(bad_iff _ is_bool Bool_) by apply bool_iff.
      clear FR S. unfold group_breaks, datatype_options. revert TI ND. cbv zeta. abstract_values. intros TI ND.
      destruct r; (split; intros H); try (exfalso; exact H); spread H; try contradiction; try solve [eauto 8];
        try (exfalso; match goal with H : own_sql_breaks _ _ _ _ |- _ => apply OR in H; exact H end);
        repeat (first [left; solve [eauto 8] | right]); eauto 8.
    - apply eq_str_not in TI. destruct (eq_str (get "type" d) "duration") eqn:DU.
      + apply eq_str_get in DU.
        apply bind_ok in T. destruct T as [fr [FR T]]. apply bind_ok in T. destruct T as [a [A T]]. apply bind_ok in T. destruct T as [b [B T]]. apply ok_inj in T. subst t.
        rewrite !in_app_iff, !in_chk, (frames_iff _ _ _ _ _ _ _ r FR), (side_iff _ _ _ _ r A), (side_iff _ _ _ _ r B), !has_true.
        clear FR A B. unfold group_breaks. revert TI DU. cbv zeta. abstract_values. intros TI DU.
        destruct r; (split; intros H); try (exfalso; exact H); spread H; try contradiction; try solve [eauto 8];
          try (exfalso; match goal with H : sql_breaks _ _ _ _ _ |- _ => apply SR in H; exact H end);
          repeat (first [left; solve [eauto 8] | right]); eauto 8.
      + apply eq_str_not in DU. apply ok_inj in T. subst t. cbn [In]. unfold group_breaks. revert TI DU. cbv zeta. abstract_values. intros TI DU.
        destruct r; (split; intros H); try (exfalso; exact H); spread H; try contradiction; try solve [eauto 8].
  Qed.

  (** *** Measures *)
  Definition dates (l : list (string + finfo)) : list (option string) :=
    flat_map (fun x => match x with
                       | inr i => if String.eqb (fi_ftype i) "measure" && negb (String.eqb (fi_type i) "cumulative") then [fi_canon i] else []
                       | inl _ => []
                       end) l.
  Lemma in_dates l c : In c (dates l) <-> exists i, In (inr i) l /\ plain_measure i /\ c = fi_canon i.
  Proof.
    unfold dates, plain_measure. rewrite in_flat_map. split.
    - intros ([q|i] & I & H); [destruct H|]. destruct (String.eqb_spec (fi_ftype i) "measure") as [M|]; [|destruct H].
      destruct (String.eqb_spec (fi_type i) "cumulative") as [|C]; [destruct H|]. destruct H as [<-|[]]. eauto 6.
    - intros (i & I & (M & C) & ->). exists (inr i). split; [exact I|]. rewrite M. destruct (String.eqb_spec (fi_type i) "cumulative"); [contradiction|]. left. reflexivity.
  Qed.
  Lemma oeq (x y : option string) : (match x, y with Some a, Some b => String.eqb a b | None, None => true | _, _ => false end) = true <-> x = y.
  Proof. destruct x, y; try (split; [discriminate|congruence]); [rewrite String.eqb_eq; split; congruence|split; auto]. Qed.
  Lemma differ (l : list (option string)) :
    (match l with [] => false | x :: r => negb (forallb (fun y => match x, y with Some a, Some b => String.eqb a b | None, None => true | _, _ => false end) r) end) = true
    <-> exists a b, In a l /\ In b l /\ a <> b.
  Proof.
    destruct l as [|x r]; [split; [discriminate|intros (a & b & [] & _)]|]. rewrite negb_true_iff. split.
    - intros H. assert (X : exists y, In y r /\ x <> y).
      { induction r as [|y r IH]; [discriminate H|]. cbn [forallb] in H. apply andb_false_iff in H. destruct H as [H|H].
        - exists y. split; [left; reflexivity|]. intros X. apply oeq in X. congruence.
        - destruct (IH H) as (z & I & N). exists z. split; [right; exact I|exact N]. }
      destruct X as (y & I & N). exists x, y. cbn [In]. auto.
    - intros (a & b & A & B & N). destruct (forallb _ r) eqn:F; [|reflexivity]. exfalso. rewrite forallb_forall in F.
      assert (EQ : forall z, In z (x :: r) -> z = x) by (intros z [->|I]; [reflexivity|]; symmetry; apply oeq; apply F; exact I).
      apply N. rewrite (EQ a A), (EQ b B). reflexivity.
  Qed.
  Lemma merged_iff d b : ftype d = "measure" -> merged_result E fuel n d = Ok b -> (b = true <-> merged E n d).
  Proof.
    intros FT H. unfold merged_result, ytype in H. unfold merged. destruct (get "is_merged_result" d) as [v|] eqn:G; unfold get in G.
    - injection H as <-. rewrite truthy_filled. unfold value, lacks. rewrite G. split; [eauto|]. intros [(w & X & Y)|(X & _)]; congruence.
    - rewrite FT, String.eqb_refl, andb_true_r in H. destruct (eq_str (get "type" d) "number") eqn:NU.
      + apply eq_str_get in NU. apply bind_ok in H. destruct H as [v [V H]]. apply bind_ok in H. destruct H as [l [L H]].
        apply ok_inj in H. rewrite <- H. change (flat_map _ l) with (dates l). rewrite differ. apply refs_of_iff in L. destruct L as [_ L]. split.
        * intros (x & y & X & Y & N). right. split; [exact G|]. split; [exact NU|]. apply in_dates in X. apply in_dates in Y.
          destruct X as (i & X & PX & ->), Y as (j & Y & PY & ->). apply L in X. apply L in Y. destruct X as (t & TX & X), Y as (t' & TY & Y).
          rewrite TX in TY. injection TY as <-. exists t, i, j. rewrite V, TX. auto 8.
        * intros [(w & X & _)|(_ & _ & t & i & j & T & X & Y & PX & PY & N)]; [congruence|]. rewrite V in T. injection T as ->.
          exists (fi_canon i), (fi_canon j). split; [|split]; [apply in_dates; exists i; split; [apply L; eauto|auto] | apply in_dates; exists j; split; [apply L; eauto|auto] | exact N].
      + apply eq_str_not in NU. injection H as <-. split; [discriminate|]. intros [(w & X & _)|(_ & X & _)]; [congruence|contradiction].
  Qed.
  Lemma full_filled s : Filled (YStr (full E s)).
  Proof.
    apply truthy_filled. unfold full. destruct (contains "." s) eqn:C; cbn [truthy].
    - destruct s; [discriminate C|reflexivity].
    - destruct (e_view E); reflexivity.
  Qed.
  Lemma dateless d : (match canon_date E d with Some v => truthy v | None => false end) = false <-> ~ value d "canon_date" Filled /\ e_default_date E = None.
  Proof.
    assert (Q : forall s, truthy (YStr (qualify E s)) = true) by (intros s; apply truthy_filled, full_filled).
    assert (DEF : (match option_map (fun v => YStr (qualify E v)) (e_default_date E) with Some v => truthy v | None => false end) = false <-> e_default_date E = None).
    { destruct (e_default_date E); cbn [option_map]; [rewrite Q; split; discriminate | tauto]. }
    rewrite <- on_false. unfold on, canon_date. destruct (get "canon_date" d) as [v|]; [|tauto].
    assert (GEN : (match (if truthy v then Some v else option_map (fun v => YStr (qualify E v)) (e_default_date E)) with Some v => truthy v | None => false end) = false
       <-> truthy v = false /\ e_default_date E = None).
    { destruct (truthy v) eqn:T; [rewrite T; intuition congruence|]. rewrite DEF. tauto. }
    destruct v; try exact GEN. cbn [truthy]. destruct (String.eqb s ""); cbn [negb]; [tauto|]. rewrite Q. intuition congruence.
  Qed.
  Lemma measure_ok d x : measure E d = Ok x ->
    match x with
    | None => ~ value d "measure" Filled
    | Some (inl _) => True
    | Some (inr i) => exists s, is_text d "measure" s /\ s <> "" /\ e_with_view E (e_view E) s = Ok i
    end.
  Proof.
    assert (ON := on_false "measure" d). revert ON. unfold measure, on, is_text, get. destruct (assoc "measure" d) as [v|]; intros ON H; [|injection H as <-; apply ON; reflexivity].
    destruct (truthy v) eqn:T; [|injection H as <-; apply ON; reflexivity].
    destruct v; try (injection H as <-; exact I). apply bind_ok in H. destruct H as [i [W H]]. injection H as <-. exists s. split; [reflexivity|]. split; [|exact W].
    intros ->. discriminate T.
  Qed.
  Lemma measure_err d e : measure E d = Err e -> exists s, is_text d "measure" s /\ s <> "" /\ e_with_view E (e_view E) s = Err e.
  Proof.
    unfold measure, is_text, get. destruct (assoc "measure" d) as [v|]; [|discriminate]. destruct (truthy v) eqn:T; [|discriminate].
    destruct v; try discriminate. intros H. exists s. split; [reflexivity|]. split; [intros ->; discriminate T|].
    destruct (e_with_view E (e_view E) s); [discriminate H|]. cbn [bind] in H. congruence.
  Qed.
  Definition cum_reached d : Prop := exists s i, is_text d "measure" s /\ s <> "" /\ e_with_view E (e_view E) s = Ok i /\ fi_ftype i <> "measure".
  Definition cum_lost d : Prop := ~ value d "measure" Filled \/ exists s, is_text d "measure" s /\ s <> "" /\ (e_with_view E (e_view E) s = Err AccessDenied \/ e_with_view E (e_view E) s = Err QueryError).
  Lemma text_filled d k s : is_text d k s -> s <> "" -> value d k Filled.
  Proof. intros T N. exists (YStr s). split; [exact T|]. apply truthy_filled. cbn [truthy]. destruct (String.eqb_spec s ""); [contradiction|reflexivity]. Qed.
  Lemma cumulative_iff d out r : cumulative_errors E d = Ok out ->
    (In r out <-> (r = RCumNoMeasure /\ lacks d "measure") \/ (r = RCumMeasureType /\ value d "measure" (fun v => ~ Str v)) \/ (r = RCumNotMeasure /\ cum_reached d) \/ (r = RCumUnreachable /\ cum_lost d)
       \/ (r = RCumWhere /\ value d "cumulative_where" (fun v => ~ Str v)) \/ (r = RUpdateWhere /\ value d "update_where_timeframe" (fun v => ~ Bool_ v))).
  Proof.
    unfold cumulative_errors. intros H. apply bind_ok in H. destruct H as [m [M H]]. apply ok_inj in H. subst out.
    assert (MI : In r m <-> (r = RCumNotMeasure /\ cum_reached d) \/ (r = RCumUnreachable /\ cum_lost d)).
    { unfold cum_reached, cum_lost. destruct (measure E d) as [x|e] eqn:ME.
      - apply measure_ok in ME. destruct x as [[v|i]|]; [discriminate M| |].
        + apply ok_inj in M. subst m. destruct ME as (s & T & N & W). rewrite in_chk, negb_true_iff, String.eqb_neq. split.
          * intros [X ->]. left. split; [reflexivity|]. eauto 8.
          * intros [(-> & t & j & T' & _ & W' & X)|(-> & [X|(t & T' & _ & W')])].
            -- assert (s = t) by (unfold is_text in *; congruence). subst t. rewrite W in W'. injection W' as <-. auto.
            -- exfalso. apply X. eapply text_filled; eauto.
            -- exfalso. assert (s = t) by (unfold is_text in *; congruence). subst t. destruct W'; congruence.
        + apply ok_inj in M. subst m. cbn [In]. split.
          * intros [<-|[]]. right. auto.
          * intros [(-> & t & j & T' & N & _)|(-> & _)]; [|auto]. exfalso. apply ME. eapply text_filled; eauto.
      - apply measure_err in ME. destruct ME as (s & T & N & W). 
        assert (X : (e = AccessDenied \/ e = QueryError) /\ m = [RCumUnreachable]) by (destruct e; try discriminate M; apply ok_inj in M; auto).
        destruct X as [X ->]. cbn [In]. split.
        + intros [<-|[]]. right. split; [reflexivity|]. right. exists s. split; [exact T|]. split; [exact N|]. destruct X; subst e; auto.
        + intros [(-> & t & j & T' & _ & W' & _)|(-> & _)]; [|auto]. exfalso. assert (s = t) by (unfold is_text in *; congruence). subst t. congruence. }
    rewrite !in_app_iff, MI, !in_chk, negb_true_iff, has_false, !(bad_iff _ is_str Str) by apply str_iff. rewrite !(bad_iff _ is_bool Bool_) by apply bool_iff. tauto.
  Qed.
  Definition asked d q : Prop := q <> "TABLE" /\ exists s, is_text d "sql_distinct_key" s /\ In q (fields_to_replace s).
  Lemma distinct_iff d out r : distinct_errors E d = Ok out ->
    (In r out <-> (r = RNoDistinctKey /\ value d "type" (OneOf ["sum_distinct"; "average_distinct"]) /\ ~ value d "sql_distinct_key" Filled)
       \/ (r = RDistinctKey /\ value d "sql_distinct_key" (fun v => Filled v /\ ~ Str v)) \/ (exists q, r = RDistinctRef q /\ asked d q /\ e_with_view E (e_view E) q = Err AccessDenied)).
  Proof.
    unfold distinct_errors, ytype, asked. intros H. assert (SI := str_in_get "type" d requires_sql_distinct_key). unfold requires_sql_distinct_key in *.
    assert (ON := on_false "sql_distinct_key" d). assert (ONT := on_true "sql_distinct_key" d).
    destruct (str_in (get "type" d) ["sum_distinct"; "average_distinct"] && negb (on "sql_distinct_key" d)) eqn:C.
    - apply ok_inj in H. subst out. apply andb_true_iff in C. destruct C as [C1 C2]. apply negb_true_iff in C2. apply SI in C1. apply ON in C2. cbn [In]. split.
      + intros [<-|[]]. auto.
      + intros [(-> & _)|[(-> & v & X & Y & _)|(q & -> & (N & s & T & I) & _)]]; [auto| |]; exfalso.
        * apply C2. exists v. auto.
        * apply C2. eapply text_filled; [exact T|]. intros ->. destruct I.
    - assert (NK : ~ (value d "type" (OneOf ["sum_distinct"; "average_distinct"]) /\ ~ value d "sql_distinct_key" Filled)).
      { intros [X Y]. apply SI in X. apply ON in Y. rewrite X, Y in C. discriminate C. }
      clear SI ON ONT C. unfold value at 3, is_text. unfold get in H. destruct (assoc "sql_distinct_key" d) as [v|]; cycle 1.
      { apply ok_inj in H. subst out. split; [intros []|]. intros [(_ & X)|[(_ & v & X & _)|(q & _ & (_ & s & X & _) & _)]]; [contradiction|discriminate X|discriminate X]. }
      destruct v.
      5:{ rewrite (concatM_in _ _ _ r H). split.
          - intros (q & ys & I & Y & R). destruct (String.eqb_spec q "TABLE") as [_|NT]; [apply ok_inj in Y; subst ys; destruct R|].
            destruct (e_with_view E (e_view E) q) eqn:W; [apply ok_inj in Y; subst ys; destruct R|]. destruct e; try discriminate Y.
            apply ok_inj in Y; subst ys. destruct R as [<-|[]]. right. right. exists q. eauto 8.
          - intros [(_ & X)|[(_ & v & X & _ & Y)|(q & -> & (N & t & X & I) & W)]]; [contradiction| |].
            + exfalso. apply Y. injection X as <-. eexists. reflexivity.
            + injection X as <-. destruct (concatM_ok_all _ _ _ H q I) as [ys Y]. exists q, ys. split; [exact I|]. split; [exact Y|].
              destruct (String.eqb_spec q "TABLE"); [contradiction|]. rewrite W in Y. apply ok_inj in Y. subst ys. left. reflexivity. }
      all: apply ok_inj in H; subst out; rewrite in_chk, truthy_filled; split;
        [ intros [X ->]; right; left; (split; [reflexivity|]); eexists; (split; [reflexivity|]); (split; [exact X|]); intros [? Z]; discriminate Z
        | intros [(_ & X)|[(-> & v & X & Y & _)|(q & _ & (_ & s' & X & _) & _)]]; [contradiction|injection X as <-; auto|discriminate X] ].
  Qed.
  Lemma found_iff q ok kind miss out r : found_errors E q ok kind miss = Ok out ->
    (In r out <-> (r = kind /\ exists i, e_with_view E (e_view E) q = Ok i /\ ok i = false) \/ (r = miss /\ e_with_view E (e_view E) q = Err AccessDenied)).
  Proof.
    unfold found_errors. intros H. destruct (e_with_view E (e_view E) q) as [i|e].
    - apply ok_inj in H. subst out. rewrite in_chk, negb_true_iff. split; [intros [X ->]; eauto|]. intros [(-> & j & X & Y)|(_ & X)]; [|discriminate X]. injection X as <-. auto.
    - destruct e; try discriminate H. apply ok_inj in H. subst out. cbn [In]. split; [intros [<-|[]]; auto|]. intros [(_ & j & X & _)|(-> & _)]; [discriminate X|auto].
  Qed.
  (** What qualifying a non additive dimension does *)
  Lemma nad_ok d v m0 : get "non_additive_dimension" d = Some (YDict m0) -> m0 <> [] -> nad E d = Ok v ->
    exists m nm, v = Some (YDict m) /\ is_text m0 "name" nm /\ is_text m "name" (full E nm) /\ map fst m = map fst m0
      /\ (forall k, k <> "name" -> k <> "window_groupings" -> get k m = get k m0)
      /\ get "window_groupings" m = match get "window_groupings" m0 with Some (YList l) => Some (YList (map (qualify_value E) l)) | w => w end
      /\ (forall l, get "window_groupings" m0 = Some (YList l) -> forallb is_str l = true).
  Proof.
    intros G NE H. unfold nad in H. rewrite G in H. destruct m0 as [|x r]; [contradiction|]. set (m0 := x :: r) in *. clearbody m0. clear x r.
    destruct (assoc "name" m0) as [w|] eqn:NM; [|discriminate H]. destruct w; try discriminate H.
    set (m1 := set_key "name" (YStr (qualify E s)) m0) in *.
    assert (G1 : forall k, get k m1 = if String.eqb k "name" then Some (YStr (qualify E s)) else get k m0) by (intros k; apply set_key_get).
    assert (K1 : map fst m1 = map fst m0) by (apply set_key_keys; congruence).
    assert (GW := G1 "window_groupings"). cbn [String.eqb Ascii.eqb Bool.eqb] in GW. unfold get in GW at 1. rewrite GW in H. clear GW.
    destruct (get "window_groupings" m0) as [wg|] eqn:WG.
    - destruct wg as [| | | | |l|].
      6:{ destruct (forallb is_str l) eqn:F; [|discriminate H]. apply ok_inj in H. subst v. destruct l as [|y l].
          - exists m1, s. split; [reflexivity|]. split; [exact NM|]. split; [exact (G1 "name")|]. split; [exact K1|]. split.
            + intros k N1 N2. rewrite G1. destruct (String.eqb_spec k "name"); [contradiction|reflexivity].
            + split; [rewrite G1; exact WG|]. intros l X. injection X as <-. reflexivity.
          - eexists. exists s. split; [reflexivity|]. split; [exact NM|]. split; [unfold is_text; pose proof (set_key_get "window_groupings" (YList (map (qualify_value E) (y :: l))) m1 "name") as Q; cbn [String.eqb Ascii.eqb Bool.eqb] in Q; unfold get in Q at 1; rewrite Q; exact (G1 "name")|].
            split; [rewrite set_key_keys; [exact K1|]; fold (get "window_groupings" m1); rewrite G1; cbn [String.eqb Ascii.eqb Bool.eqb]; rewrite WG; discriminate|]. split.
            + intros k N1 N2. rewrite set_key_get, G1. destruct (String.eqb_spec k "window_groupings"); [contradiction|]. destruct (String.eqb_spec k "name"); [contradiction|reflexivity].
            + split; [rewrite set_key_get; reflexivity|]. intros l' X. injection X as <-. exact F. }
      all: apply ok_inj in H; subst v; exists m1, s; (split; [reflexivity|]); (split; [exact NM|]); (split; [exact (G1 "name")|]); (split; [exact K1|]); split;
        [ intros k N1 N2; rewrite G1; destruct (String.eqb_spec k "name"); [contradiction|reflexivity]
        | split; [rewrite G1; exact WG | intros l' X; discriminate X] ].
    - apply ok_inj in H; subst v; exists m1, s; (split; [reflexivity|]); (split; [exact NM|]); (split; [exact (G1 "name")|]); (split; [exact K1|]); split;
        [ intros k N1 N2; rewrite G1; destruct (String.eqb_spec k "name"); [contradiction|reflexivity]
        | split; [rewrite G1; exact WG | intros l' X; discriminate X] ].
  Qed.

  Lemma time_group i : is_time_group i = false <-> ~ (fi_ftype i = "dimension_group" /\ fi_type i = "time").
  Proof. unfold is_time_group. rewrite andb_false_iff, !String.eqb_neq. destruct (String.eqb_spec (fi_ftype i) "dimension_group"), (String.eqb_spec (fi_type i) "time"); tauto. Qed.
  Lemma dimension_kind i : is_dimension i = false <-> ~ In (fi_ftype i) ["dimension"; "dimension_group"].
  Proof. unfold is_dimension. rewrite mem_false. cbn [In]. tauto. Qed.
  Definition nad_breaks (d : ydict) (r : rule) : Prop :=
    let window m := assoc "non_additive_dimension" d = Some (YDict m) /\ m <> [] in
    match r with
    | RNad => value d "non_additive_dimension" (fun v => ~ Dict v)
    | RNadName => assoc "non_additive_dimension" d = Some (YDict [])
    | RNadKind => exists m s i, window m /\ is_text m "name" s /\ e_with_view E (e_view E) (full E s) = Ok i /\ ~ (fi_ftype i = "dimension_group" /\ fi_type i = "time")
    | RNadMissing => exists m s, window m /\ is_text m "name" s /\ e_with_view E (e_view E) (full E s) = Err AccessDenied
    | RWindow => exists m, window m /\ value m "window_choice" (fun v => ~ OneOf ["max"; "min"] v)
    | RWindowAware => exists m, window m /\ value m "window_aware_of_query_dimensions" (fun v => ~ Bool_ v)
    | RNullsEqual => exists m, window m /\ value m "nulls_are_equal" (fun v => ~ Bool_ v)
    | RGroupings => exists m, window m /\ value m "window_groupings" (fun v => ~ List_ v)
    | RGroupingKind g => exists m s i, window m /\ element m "window_groupings" (YStr s) /\ g = full E s /\ e_with_view E (e_view E) g = Ok i /\ ~ In (fi_ftype i) ["dimension"; "dimension_group"]
    | RGroupingMissing g => exists m s, window m /\ element m "window_groupings" (YStr s) /\ g = full E s /\ e_with_view E (e_view E) g = Err AccessDenied
    | RNadKey k => exists m, window m /\ In k (map fst m) /\ ~ In k ["name"; "window_choice"; "window_aware_of_query_dimensions"; "nulls_are_equal"; "window_groupings"]
    | _ => False
    end.
  Lemma nad_iff d out r : nad_errors E d = Ok out -> (In r out <-> nad_breaks d r).
  Proof.
    unfold nad_errors. intros H. unfold nad_breaks. cbv zeta. destruct (get "non_additive_dimension" d) as [v|] eqn:G.
    2:{ apply ok_inj in H. subst out. unfold value. unfold get in G. rewrite G. split; [intros []|].
        intros X. destruct r; try exact X; spread X; discriminate. }
    assert (GA : assoc "non_additive_dimension" d = Some v) by exact G. rewrite !GA.
    assert (VV : forall P, value d "non_additive_dimension" P <-> P v). { intros P. unfold value. rewrite GA. split; [intros (w & X & Y); congruence|eauto]. }
    destruct v as [| | | | | |m0].
    7:{ assert (ND : ~ value d "non_additive_dimension" (fun v => ~ Dict v)) by (rewrite VV; intros Y; apply Y; eexists; reflexivity).
        destruct m0 as [|x rest].
        { apply ok_inj in H. subst out. cbn [In]. split; [intros [<-|[]]; reflexivity|].
          intros X. destruct r; try (exfalso; exact X); try contradiction; try (left; reflexivity); exfalso; spread X; congruence. }
        assert (NE : x :: rest <> []) by discriminate. set (m0 := x :: rest) in *. clearbody m0. clear x rest.
        apply bind_ok in H. destruct H as [v [V H]]. destruct (nad_ok d v m0 G NE V) as (m & nm & -> & T0 & T1 & KS & SAME & WG & ST).
        apply bind_ok in H. destruct H as [a [A H]]. apply bind_ok in H. destruct H as [w [WC H]]. apply bind_ok in H. destruct H as [g [GR H]]. apply ok_inj in H. subst out.
        assert (TN : text (get "name" m) = full E nm) by (unfold is_text in T1; unfold get; rewrite T1; reflexivity). rewrite TN in A. clear TN.
        assert (SV : forall k P, k <> "name" -> k <> "window_groupings" -> (value m k P <-> value m0 k P)) by (intros k P N1 N2; unfold value; fold (get k m); rewrite (SAME k N1 N2); reflexivity).
        assert (WI : In r w <-> r = RWindow /\ value m0 "window_choice" (fun v => ~ OneOf ["max"; "min"] v)).
        { rewrite <- SV by discriminate. rewrite <- has_oneof by exact E. destruct (str_in (get "window_choice" m) ["max"; "min"]).
          - apply ok_inj in WC. subst w. rewrite andb_false_r. cbn [In]. intuition discriminate.
          - destruct (has "window_choice" m); [|discriminate WC]. apply ok_inj in WC. subst w. cbn [In andb negb]. intuition. }
        assert (GI : In r g <-> (r = RGroupings /\ value m0 "window_groupings" (fun v => ~ List_ v))
                     \/ (exists s, element m0 "window_groupings" (YStr s) /\
                          ((r = RGroupingKind (full E s) /\ exists i, e_with_view E (e_view E) (full E s) = Ok i /\ ~ In (fi_ftype i) ["dimension"; "dimension_group"])
                          \/ (r = RGroupingMissing (full E s) /\ e_with_view E (e_view E) (full E s) = Err AccessDenied)))).
        { rewrite WG in GR. unfold value, element. unfold get in GR, ST. destruct (assoc "window_groupings" m0) as [wg|].
          - destruct wg as [| | | | |l|].
            6:{ specialize (ST l eq_refl). rewrite (concatM_in _ _ _ r GR). split.
                - intros (u & ys & I & Y & R). apply in_map_iff in I. destruct I as (u0 & <- & I). rewrite forallb_forall in ST. specialize (ST u0 I).
                  destruct u0; try discriminate ST. cbn [qualify_value text] in Y. apply (found_iff _ _ _ _ _ r Y) in R. right. exists s. split; [eauto|].
                  destruct R as [(-> & i & X & Z)|(-> & X)]; [left|right]; (split; [reflexivity|]); [|exact X]. exists i. split; [exact X|]. apply dimension_kind. exact Z.
                - intros [(_ & u & X & Y)|(s & (l' & X & I) & R)].
                  + injection X as <-. exfalso. apply Y. eexists. reflexivity.
                  + injection X as <-. destruct (concatM_ok_all _ _ _ GR (qualify_value E (YStr s)) (in_map _ _ _ I)) as [ys Y].
                    exists (qualify_value E (YStr s)), ys. split; [apply in_map; exact I|]. split; [exact Y|]. cbn [qualify_value text] in Y. apply (found_iff _ _ _ _ _ r Y).
                    destruct R as [(-> & i & R & Z)|(-> & R)]; [left|right]; (split; [reflexivity|]); [|exact R]. exists i. split; [exact R|]. apply dimension_kind. exact Z. }
            all: apply ok_inj in GR; subst g; cbn [In]; split;
              [ intros [<-|[]]; left; (split; [reflexivity|]); eexists; (split; [reflexivity|]); intros [? Z]; discriminate Z
              | intros [(-> & _)|(s' & (l' & X & _) & _)]; [auto|discriminate X] ].
          - apply ok_inj in GR. subst g. split; [intros []|]. intros [(_ & u & X & _)|(s & (l & X & _) & _)]; discriminate X. }
        rewrite !in_app_iff, (found_iff _ _ _ _ _ r A), WI, GI, !in_chk, in_keys, !(bad_iff _ is_bool Bool_), !SV, KS by (apply bool_iff || discriminate).
        clear A WC GR V WI GI SV SAME WG ST KS GA VV G. unfold nad_keys. assert (KN := time_group).
        destruct r; (split; intros H); try (exfalso; exact H); spread H; try contradiction;
          repeat match goal with X : Some (YDict _) = Some (YDict _) |- _ => injection X as <- | X : is_time_group _ = false |- _ => apply KN in X end; try congruence.
        all: try (match goal with |- exists _, _ => eexists end; solve [eauto 12]).
        all: repeat match goal with X : is_text ?m "name" ?s, Y : is_text ?m "name" ?t |- _ => assert (s = t) by (eapply text_once; eauto); subst t; clear Y end.
        all: subst; try solve [left; left; split; [reflexivity|]; eexists; split; [eassumption|]; apply KN; assumption].
        all: repeat (first [left; solve [eauto 8] | right]); try solve [eauto 12].
    }
    all: apply ok_inj in H; subst out.
    all: match goal with |- context [Some ?w = Some (YDict [])] => assert (NS : ~ Dict w) by (intros [? X]; discriminate X) end.
    all: cbn [In]; split; [intros [<-|[]]; apply VV; exact NS|].
    all: intros X; destruct r; try (exfalso; exact X); try (left; reflexivity); exfalso; spread X; discriminate.
  Qed.

  Lemma measure_sql_iff d s r : (if negb (has "sql" d) && negb (eq_str (get "type" d) "cumulative") then Ok [RNoSql]
          else if negb (eq_str (get "type" d) "cumulative") && bad "sql" is_str d then Ok [RMeasureSql]
          else if eq_str (get "type" d) "cumulative" then s <- sql E n d ;; Ok [] else own_sql_errors E fuel n d) = Ok s ->
    (In r s <-> ~ is_text d "type" "cumulative" /\ ((r = RNoSql /\ lacks d "sql") \/ (r = RMeasureSql /\ value d "sql" (fun v => ~ Str v)) \/ (value d "sql" Str /\ own_sql_breaks E n d r))).
  Proof.
    intros S. destruct (eq_str (get "type" d) "cumulative") eqn:CU.
    - apply eq_str_get in CU. rewrite andb_false_r in S. cbn [negb andb] in S. apply bind_ok in S. destruct S as [x [_ S]]. apply ok_inj in S. subst s. cbn [In]. tauto.
    - apply eq_str_not in CU. rewrite andb_true_r in S. cbn [negb andb] in S. assert (HL := has_false "sql" d). assert (BI := bad_iff "sql" is_str Str d str_iff).
      destruct (has "sql" d) eqn:HS; cbn [negb] in S.
      + destruct (bad "sql" is_str d) eqn:B.
        * apply ok_inj in S. subst s. assert (V : value d "sql" (fun v => ~ Str v)) by (apply BI; reflexivity). cbn [In].
          assert (NV : ~ value d "sql" Str) by (destruct V as (v & X & Y); intros (w & X' & Y'); congruence).
          assert (NL : ~ lacks d "sql") by (rewrite <- HL; discriminate). split; [intros [<-|[]]; auto|]. intros (_ & [(_ & X)|[(-> & _)|(X & _)]]); [contradiction|auto|contradiction].
        * assert (NB : ~ value d "sql" (fun v => ~ Str v)) by (rewrite <- BI; discriminate).
          assert (NL : ~ lacks d "sql") by (rewrite <- HL; discriminate).
          assert (T : exists t, is_text d "sql" t).
          { unfold bad in B. unfold is_text. unfold get in B. destruct (assoc "sql" d) as [v|] eqn:G; [|exfalso; apply NL; exact G]. destruct v; try discriminate B. eauto. }
          destruct T as [t T]. rewrite (own_sql_iff E fuel n d t s r T S). assert (value d "sql" Str) by (apply value_str; eauto). tauto.
      + apply ok_inj in S. subst s. assert (L : lacks d "sql") by (apply HL; reflexivity). cbn [In]. unfold value. unfold lacks in *. rewrite L. split; [intros [<-|[]]; auto|].
        intros (_ & [(-> & _)|[(_ & w & X & _)|((w & X & _) & _)]]); [auto|discriminate X|discriminate X].
  Qed.
  Lemma measure_iff d out r : ftype d = "measure" -> measure_errors E fuel n d = Ok out -> (In r out <-> measure_breaks E n d r).
  Proof.
    intros FT H. unfold measure_errors, ytype in H. cbv zeta in H. change measure_options with aggregations in H.
    apply bind_ok in H. destruct H as [dt [DT H]]. apply bind_ok in H. destruct H as [s [S H]]. apply bind_ok in H. destruct H as [c [C H]].
    apply bind_ok in H. destruct H as [k [K H]]. apply bind_ok in H. destruct H as [a [A H]]. apply ok_inj in H. subst out.
    assert (DI : In r dt <-> exists b, r = RNoDate b /\ (~ value d "canon_date" Filled /\ e_default_date E = None) /\ (b = true <-> merged E n d)).
    { assert (X : (match canon_date E d with Some v => truthy v | None => false end) = false /\ (exists b, merged_result E fuel n d = Ok b /\ dt = [RNoDate b])
               \/ (match canon_date E d with Some v => truthy v | None => false end) = true /\ dt = []).
      { destruct (canon_date E d) as [v|]; [destruct (truthy v)|].
        - right. apply ok_inj in DT. auto.
        - left. apply bind_ok in DT. destruct DT as [b [B DT]]. apply ok_inj in DT. eauto.
        - left. apply bind_ok in DT. destruct DT as [b [B DT]]. apply ok_inj in DT. eauto. }
      assert (DL := dateless d). destruct X as [[X (b & B & ->)]|[X ->]]; rewrite X in DL.
      - apply (merged_iff d b FT) in B. cbn [In]. split.
        + intros [<-|[]]. exists b. split; [reflexivity|]. split; [apply DL; reflexivity|exact B].
        + intros (b' & -> & _ & B'). left. destruct b, b'; try reflexivity; exfalso; intuition discriminate.
      - split; [intros []|]. intros (b & _ & Y & _). apply DL in Y. discriminate Y. }
    assert (SI : In r s <-> (r = RNoSql /\ lacks d "sql" /\ ~ is_text d "type" "cumulative") \/ (r = RMeasureSql /\ value d "sql" (fun v => ~ Str v) /\ ~ is_text d "type" "cumulative")
       \/ (value d "sql" Str /\ ~ is_text d "type" "cumulative" /\ own_sql_breaks E n d r)) by (rewrite (measure_sql_iff d s r S); tauto).
    assert (CI : In r c <-> (r = RCumNoMeasure /\ is_text d "type" "cumulative" /\ lacks d "measure") \/ (r = RCumMeasureType /\ is_text d "type" "cumulative" /\ value d "measure" (fun v => ~ Str v))
       \/ (r = RCumNotMeasure /\ is_text d "type" "cumulative" /\ cum_reached d) \/ (r = RCumUnreachable /\ is_text d "type" "cumulative" /\ cum_lost d)
       \/ (r = RCumWhere /\ is_text d "type" "cumulative" /\ value d "cumulative_where" (fun v => ~ Str v)) \/ (r = RUpdateWhere /\ is_text d "type" "cumulative" /\ value d "update_where_timeframe" (fun v => ~ Bool_ v))).
    { destruct (eq_str (get "type" d) "cumulative") eqn:CU.
      - apply eq_str_get in CU. rewrite (cumulative_iff d c r C). tauto.
      - apply eq_str_not in CU. apply ok_inj in C. subst c. cbn [In]. tauto. }
    rewrite !in_app_iff, DI, SI, CI, (distinct_iff d k r K), (nad_iff d a r A), !in_chk, negb_true_iff, str_in_get_not, has_true, (bad_iff _ is_bool Bool_) by apply bool_iff.
    clear DT S C K A DI SI CI.
    assert (OR := own_sql_rules E n d r).
    destruct (match r with RNad | RNadName | RNadKind | RNadMissing | RWindow | RWindowAware | RNullsEqual | RGroupings | RGroupingKind _ | RGroupingMissing _ | RNadKey _ => true | _ => false end) eqn:IN.
    - assert (EQ : measure_breaks E n d r = nad_breaks d r) by (destruct r; try discriminate IN; reflexivity). rewrite EQ. clear EQ. generalize (nad_breaks d r). intros P.
      revert OR. generalize (own_sql_breaks E n d r). intros O OR. unfold cum_reached, cum_lost, asked. abstract_values.
      destruct r; try discriminate IN; (split; intros H; [spread H; try assumption; exfalso; apply OR; assumption | repeat right; exact H]).
    - assert (NB : nad_breaks d r <-> False) by (destruct r; try discriminate IN; reflexivity). rewrite NB. clear NB.
      change (cum_reached d) with (exists s i, is_text d "measure" s /\ s <> "" /\ e_with_view E (e_view E) s = Ok i /\ fi_ftype i <> "measure").
      change (cum_lost d) with (~ value d "measure" Filled \/ exists s, is_text d "measure" s /\ s <> "" /\ (e_with_view E (e_view E) s = Err AccessDenied \/ e_with_view E (e_view E) s = Err QueryError)).
      unfold measure_breaks, asked. cbv zeta.
      generalize (exists s i, is_text d "measure" s /\ s <> "" /\ e_with_view E (e_view E) s = Ok i /\ fi_ftype i <> "measure").
      generalize (~ value d "measure" Filled \/ exists s, is_text d "measure" s /\ s <> "" /\ (e_with_view E (e_view E) s = Err AccessDenied \/ e_with_view E (e_view E) s = Err QueryError)).
      intros P1 P2. abstract_values.
      destruct r; try discriminate IN; (split; intros H); try (exfalso; exact H); spread H; try contradiction;
        try (exfalso; match goal with H : own_sql_breaks _ _ _ _ |- _ => apply OR in H; exact H end);
        try solve [eauto 8]; repeat (first [left; solve [eauto 8] | left; right; right; eexists; solve [eauto 8] | right]); try solve [eauto 12].
  Qed.
End Kinds.
