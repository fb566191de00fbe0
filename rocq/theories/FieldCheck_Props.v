(** C63: validating a field reports exactly the broken rules of its definition; where it raises instead. *)
From Coq Require Import List String ZArith Bool Lia.
From Verif Require Import PyBase PyStr PyRefs PyReplace PyList Names_Model Names_Props FieldCheck_Model FieldCheck_Spec FieldCheck_Proofs FieldCheck_Kinds.
From Verif Require Timeframe_Model Timeframe_Props Duration_Model Duration_Props.
Import ListNotations.
Local Open Scope string_scope.
Local Open Scope list_scope.

(** The rules a definition breaks.  The field names of its filters are completed with the view before the SQL is
    read. *)
Definition breaks (E : fenv) (n : string) (d : ydict) (r : rule) : Prop :=
  common_breaks E n d r \/ filter_breaks E n d r \/ canon_breaks E d r
  \/ is_text d "field_type" "dimension" /\ dimension_breaks E n (qualify_filters E d) r
  \/ is_text d "field_type" "dimension_group" /\ group_breaks E n (qualify_filters E d) r
  \/ is_text d "field_type" "measure" /\ measure_breaks E n (qualify_filters E d) r.

Section Props.
  Variable E : fenv.
  Variable fuel : nat.
  Variable n : string.

  Lemma q_get k d : k <> "filters" -> assoc k (qualify_filters E d) = assoc k d.
  Proof. intros N. exact (qualify_filters_get E k d N). Qed.
  Lemma q_value k d P : k <> "filters" -> (value (qualify_filters E d) k P <-> value d k P).
  Proof. intros N. unfold value. rewrite (q_get k d N). reflexivity. Qed.
  Lemma q_text k d s : k <> "filters" -> (is_text (qualify_filters E d) k s <-> is_text d k s).
  Proof. intros N. unfold is_text. rewrite (q_get k d N). reflexivity. Qed.
  Lemma q_lacks k d : k <> "filters" -> (lacks (qualify_filters E d) k <-> lacks d k).
  Proof. intros N. unfold lacks. rewrite (q_get k d N). reflexivity. Qed.
  Lemma q_element k d v : k <> "filters" -> (element (qualify_filters E d) k v <-> element d k v).
  Proof. intros N. unfold element. rewrite (q_get k d N). reflexivity. Qed.
  Lemma q_ftype d : ftype (qualify_filters E d) = ftype d.
  Proof. unfold ftype. rewrite qualify_filters_get by discriminate. reflexivity. Qed.
  Lemma q_common d r : common_breaks E n (qualify_filters E d) r <-> common_breaks E n d r.
  Proof.
    unfold common_breaks. destruct r; try reflexivity;
      repeat first [rewrite q_value by discriminate | rewrite q_text by discriminate | rewrite q_lacks by discriminate | rewrite q_element by discriminate]; try reflexivity.
    - split; intros (s & X & Y); exists s; (split; [|exact Y]); revert X; apply q_text; discriminate.
    - split; intros (s & X & Y); exists s; (split; [|exact Y]); revert X; apply q_text; discriminate.
    - rewrite qualify_filters_keys, q_ftype. reflexivity.
  Qed.
  Lemma q_canon d r : canon_breaks E (qualify_filters E d) r <-> canon_breaks E d r.
  Proof.
    unfold canon_breaks, is_text, value. destruct r; try reflexivity; rewrite (q_get "canon_date" d) by discriminate; reflexivity.
  Qed.
  Lemma errors_parts d rs d' : get "name" d = Some (YStr n) -> errors E fuel d = Ok (rs, d') ->
    exists fs c k, filters_errors E n d = Ok fs /\ canon_errors E (qualify_filters E d) = Ok c
      /\ (if String.eqb (ftype d) "dimension" then dimension_errors E fuel n (qualify_filters E d)
          else if String.eqb (ftype d) "dimension_group" then group_errors E fuel n (qualify_filters E d)
          else if String.eqb (ftype d) "measure" then measure_errors E fuel n (qualify_filters E d) else Ok []) = Ok k
      /\ (forall r, In r rs <-> In r (common_part E n (ftype d) (qualify_filters E d)) \/ In r fs \/ In r c \/ In r k)
      /\ exists w, (if String.eqb (ftype d) "measure" then nad E (qualify_filters E d) else Ok None) = Ok w
          /\ d' = match w with Some v => set_key "non_additive_dimension" v (qualify_filters E d) | None => qualify_filters E d end.
  Proof.
    unfold errors. intros -> H. cbv zeta in H. apply bind_ok in H. destruct H as [fs [FS H]]. apply bind_ok in H. destruct H as [c [C H]].
    apply bind_ok in H. destruct H as [k [K H]]. apply bind_ok in H. destruct H as [w [W H]]. apply ok_inj in H. injection H as HR HD.
    exists fs, c, k. split; [exact FS|]. split; [exact C|]. split; [exact K|]. split; [|exists w; split; [exact W|symmetry; exact HD]].
    intros r. rewrite <- HR. unfold common_part. rewrite !in_app_iff. tauto.
  Qed.

  (** Validation that ends reports exactly the rules that the definition breaks.  Missing for the full claim: it
      raises on the definitions of the refutations below. *)
  Theorem C63_exact_partial d rs d' : is_text d "name" n -> errors E fuel d = Ok (rs, d') -> forall r, In r rs <-> breaks E n d r.
  Proof.
    intros N H r. destruct (errors_parts d rs d' N H) as (fs & c & k & FS & C & K & IN & _).
    rewrite IN, <- (q_ftype d), (common_iff E n (qualify_filters E d) r), q_common, (filters_iff E n d fs r FS), (canon_iff E (qualify_filters E d) c r C), q_canon.
    unfold breaks. rewrite <- !(ftype_text d) by discriminate.
    assert (KI : In r k <-> (ftype d = "dimension" /\ dimension_breaks E n (qualify_filters E d) r) \/ (ftype d = "dimension_group" /\ group_breaks E n (qualify_filters E d) r)
       \/ (ftype d = "measure" /\ measure_breaks E n (qualify_filters E d) r)).
    { destruct (String.eqb_spec (ftype d) "dimension") as [T|N1].
      - rewrite (dimension_iff E fuel n _ k r K), T. intuition discriminate.
      - destruct (String.eqb_spec (ftype d) "dimension_group") as [T|N2].
        + rewrite (group_iff E fuel n _ k r K), T. intuition discriminate.
        + destruct (String.eqb_spec (ftype d) "measure") as [T|N3].
          * rewrite (measure_iff E fuel n _ k r) by (exact K || (rewrite q_ftype; exact T)). rewrite T. intuition discriminate.
          * apply ok_inj in K. subst k. cbn [In]. intuition congruence. }
    rewrite KI. tauto.
  Qed.
  (** The definition after validation: other keys than filters and the window of a measure are as before, no key is
      added or lost, and every filter keeps its keys and its value *)
  Theorem C63_definition_kept d rs d' : is_text d "name" n -> errors E fuel d = Ok (rs, d') ->
    map fst d' = map fst d /\ (forall k, k <> "filters" -> k <> "non_additive_dimension" -> assoc k d' = assoc k d).
  Proof.
    intros N H. destruct (errors_parts d rs d' N H) as (fs & c & k & _ & _ & _ & _ & w & W & ->). destruct w as [v|].
    - assert (X : assoc "non_additive_dimension" (qualify_filters E d) <> None).
      { destruct (String.eqb (ftype d) "measure"); [|discriminate W]. unfold nad, get in W. destruct (assoc "non_additive_dimension" (qualify_filters E d)); [discriminate|discriminate W]. }
      split; [rewrite set_key_keys by exact X; apply qualify_filters_keys|].
      intros q N1 N2. fold (get q (set_key "non_additive_dimension" v (qualify_filters E d))). rewrite set_key_get. destruct (String.eqb_spec q "non_additive_dimension"); [contradiction|].
      exact (q_get q d N1).
    - split; [apply qualify_filters_keys|]. intros q N1 _. exact (q_get q d N1).
  Qed.

  (** *** Definitions on which validation raises *)
  Lemma kind_fails d : (forall k, dimension_errors E fuel n (qualify_filters E d) = Ok k -> ftype d = "dimension" -> False) ->
    (forall k, group_errors E fuel n (qualify_filters E d) = Ok k -> ftype d = "dimension_group" -> False) ->
    (forall k, measure_errors E fuel n (qualify_filters E d) = Ok k -> ftype d = "measure" -> False) ->
    In (ftype d) ["dimension"; "dimension_group"; "measure"] -> is_text d "name" n -> forall o, errors E fuel d <> Ok o.
  Proof.
    intros A B C I N [rs d'] H. destruct (errors_parts d rs d' N H) as (fs & c & k & _ & _ & K & _).
    destruct I as [I|[I|[I|[]]]]; rewrite <- I in K; cbn [String.eqb Ascii.eqb Bool.eqb] in K; eauto.
  Qed.
  Theorem C63_time_key_missing_refuted d : is_text d "name" n -> is_text d "field_type" "dimension_group" -> is_text d "type" "time" ->
    lacks d "timeframes" \/ lacks d "sql" -> forall o, errors E fuel d <> Ok o.
  Proof.
    intros N F T L. apply ftype_text in F; [|discriminate]. apply kind_fails; try (intros ? ? X; congruence); [|rewrite F; cbn; auto|exact N].
    intros k K _. unfold group_errors, ytype in K. apply bind_ok in K. destruct K as [t [K _]]. apply (q_text "type" d) in T; [|discriminate]. apply eq_str_get in T. rewrite T in K.
    apply bind_ok in K. destruct K as [fr [FR K]]. apply bind_ok in K. destruct K as [s [S _]].
    unfold frames_errors, time_sql_errors, get in *. rewrite (q_get "timeframes" d) in FR by discriminate. rewrite (q_get "sql" d) in S by discriminate. unfold lacks in L.
    destruct L as [L|L]; [rewrite L in FR|rewrite L in S]; discriminate.
  Qed.
  Theorem C63_intervals_missing_refuted d : is_text d "name" n -> is_text d "field_type" "dimension_group" -> is_text d "type" "duration" ->
    lacks d "intervals" -> forall o, errors E fuel d <> Ok o.
  Proof.
    intros N F T L. apply ftype_text in F; [|discriminate]. apply kind_fails; try (intros ? ? X; congruence); [|rewrite F; cbn; auto|exact N].
    intros k K _. unfold group_errors, ytype in K. apply bind_ok in K. destruct K as [t [K _]]. assert (T' := T). apply (q_text "type" d) in T; [|discriminate].
    assert (X : eq_str (get "type" (qualify_filters E d)) "time" = false) by (apply eq_str_not; unfold is_text in *; congruence).
    apply eq_str_get in T. rewrite X, T in K. apply bind_ok in K. destruct K as [fr [FR K]].
    unfold frames_errors, get in *. rewrite (q_get "intervals" d) in FR by discriminate. unfold lacks in L. rewrite L in FR. discriminate.
  Qed.
  Theorem C63_window_key_missing_refuted d m : is_text d "name" n -> is_text d "field_type" "measure" -> assoc "non_additive_dimension" d = Some (YDict m) -> m <> [] ->
    lacks m "name" \/ lacks m "window_choice" -> forall o, errors E fuel d <> Ok o.
  Proof.
    intros N F W NE L. apply ftype_text in F; [|discriminate]. apply kind_fails; try (intros ? ? X; congruence); [|rewrite F; cbn; auto|exact N].
    intros k K _. unfold measure_errors in K. cbv zeta in K. apply bind_ok in K. destruct K as [x1 [_ K]]. apply bind_ok in K. destruct K as [x2 [_ K]]. apply bind_ok in K. destruct K as [x3 [_ K]].
    apply bind_ok in K. destruct K as [x4 [_ K]]. apply bind_ok in K. destruct K as [x5 [K _]]. rewrite <- (q_get "non_additive_dimension" d) in W by discriminate.
    unfold nad_errors, get in K. rewrite W in K. destruct m as [|y m]; [contradiction|]. set (m0 := y :: m) in *. clearbody m0. clear y m.
    apply bind_ok in K. destruct K as [v [V K]]. destruct (nad_ok E _ v m0 W NE V) as (m & nm & -> & T0 & T1 & KS & SAME & _).
    destruct L as [L|L]; [unfold lacks, is_text in *; congruence|]. apply bind_ok in K. destruct K as [a [_ K]]. apply bind_ok in K. destruct K as [w [WC _]].
    assert (X : get "window_choice" m = None) by (rewrite SAME by discriminate; exact L). unfold has in WC. fold (get "window_choice" m) in WC. rewrite X in WC. discriminate WC.
  Qed.
  Theorem C63_cumulative_measure_refuted d v : is_text d "name" n -> is_text d "field_type" "measure" -> is_text d "type" "cumulative" ->
    assoc "measure" d = Some v -> Filled v -> ~ Str v -> forall o, errors E fuel d <> Ok o.
  Proof.
    intros N F T M FI NS. apply ftype_text in F; [|discriminate]. apply kind_fails; try (intros ? ? X; congruence); [|rewrite F; cbn; auto|exact N].
    intros k K _. unfold measure_errors, ytype in K. cbv zeta in K. apply bind_ok in K. destruct K as [x1 [_ K]]. apply bind_ok in K. destruct K as [x2 [_ K]]. apply bind_ok in K. destruct K as [x3 [K _]].
    apply (q_text "type" d) in T; [|discriminate]. apply eq_str_get in T. rewrite T in K. unfold cumulative_errors in K. apply bind_ok in K. destruct K as [x [K _]].
    unfold measure, get in K. rewrite (q_get "measure" d) in K by discriminate. rewrite M in K. apply truthy_filled in FI. rewrite FI in K.
    destruct v; try discriminate K. apply NS. eexists. reflexivity.
  Qed.
  Lemma no_sql d : is_text d "field_type" "dimension" \/ is_text d "field_type" "measure" -> is_text d "name" n -> value d "sql" Str -> lacks d "case" ->
    (forall v, sql E n (qualify_filters E d) <> Ok v) -> forall o, errors E fuel d <> Ok o.
  Proof.
    intros F N S CA NO. assert (FT : ftype d = "dimension" \/ ftype d = "measure") by (destruct F as [F|F]; apply ftype_text in F; auto; discriminate).
    apply kind_fails; [| | |destruct FT as [->| ->]; cbn; auto|exact N].
    - intros k K _. unfold dimension_errors in K. apply bind_ok in K. destruct K as [x [K _]].
      apply (q_value "sql" d) in S; [|discriminate]. apply (q_lacks "case" d) in CA; [|discriminate]. apply get_str in S. apply has_false in CA. rewrite S, CA in K. cbn [negb andb] in K.
      unfold own_sql_errors in K. apply bind_ok in K. destruct K as [v [V _]]. exact (NO v V).
    - intros k _ X. destruct FT; congruence.
    - intros k K _. unfold measure_errors in K. cbv zeta in K. apply bind_ok in K. destruct K as [x1 [_ K]]. apply bind_ok in K. destruct K as [x2 [K _]].
      apply (q_value "sql" d) in S; [|discriminate]. assert (HS : has "sql" (qualify_filters E d) = true) by (apply has_true; destruct S as (w & X & _); unfold lacks; congruence).
      rewrite HS in K. cbn [negb andb] in K. destruct (eq_str (ytype (qualify_filters E d)) "cumulative") eqn:CU; cbn [negb andb] in K.
      + apply bind_ok in K. destruct K as [v [V _]]. exact (NO v V).
      + assert (B : bad "sql" is_str (qualify_filters E d) = false).
        { apply get_str in S. unfold bad. destruct (get "sql" (qualify_filters E d)); [rewrite S; reflexivity|discriminate S]. }
        rewrite B in K. unfold own_sql_errors in K. apply bind_ok in K. destruct K as [v [V _]]. exact (NO v V).
  Qed.
  (** A tier without tiers *)
  Theorem C63_empty_tiers_refuted d : is_text d "name" n -> is_text d "field_type" "dimension" -> is_text d "type" "tier" -> value d "sql" Str -> lacks d "case" ->
    assoc "tiers" d = Some (YList []) -> ~ value d "filters" Filled -> ~ value d "non_additive_dimension" Filled -> forall o, errors E fuel d <> Ok o.
  Proof.
    intros N F T S CA TI NF ND. apply no_sql; auto. intros v H. unfold sql, sql_body in H. destruct S as (w & S & s & ->). unfold get in H. rewrite (q_get "sql" d), S in H by discriminate.
    assert (NF' : truthy (filters (qualify_filters E d)) = false).
    { assert (Q : qualify_filters E d = d).
      { unfold qualify_filters, filters. apply on_false in NF. rewrite NF. destruct (has "filters" d); reflexivity. }
      rewrite Q. unfold filters. apply on_false in NF. rewrite NF. reflexivity. }
    unfold sql_finish in H. rewrite NF' in H. cbn [orb] in H. unfold nad, get in H. rewrite (q_get "non_additive_dimension" d) in H by discriminate.
    assert (ND' := proj2 (on_false "non_additive_dimension" d) ND). unfold on, get in ND'.
    apply (q_text "type" d) in T; [|discriminate]. apply eq_str_get in T. unfold ytype in H. rewrite T in H. unfold get in H. rewrite (q_get "tiers" d), TI in H by discriminate.
    destruct (assoc "non_additive_dimension" d) as [[| | | | | |[|y m]]|]; cbn [truthy] in ND'; try discriminate ND'; cbn [bind nad_on truthy] in H; try rewrite ND' in H; cbn [bind] in H; discriminate H.
  Qed.
  (** A star with filters *)
  Theorem C63_star_refuted d : is_text d "name" n -> is_text d "field_type" "dimension" \/ is_text d "field_type" "measure" -> is_text d "sql" "*" -> lacks d "case" ->
    value d "filters" Filled -> forall o, errors E fuel d <> Ok o.
  Proof.
    intros N F S CA FI. apply no_sql; auto; [exists (YStr "*"); split; [exact S|eexists; reflexivity]|]. intros v H. unfold sql, sql_body, get in H. unfold is_text in S. rewrite (q_get "sql" d), S in H by discriminate.
    assert (TF : truthy (filters (qualify_filters E d)) = true).
    { apply on_true in FI. unfold qualify_filters, filters. rewrite FI. unfold on in FI. destruct (get "filters" d) as [w|] eqn:G; [|discriminate FI].
      assert (Z : on "filters" d = true) by (unfold on; rewrite G; exact FI).
      destruct w as [| | | | |l|].
      6:{ unfold has. rewrite G. destruct l as [|x l]; [discriminate FI|]. cbn [andb]. unfold on. rewrite set_key_get. reflexivity. }
      all: rewrite Z, G; exact FI. }
    unfold sql_finish in H. rewrite TF in H. cbn [bind orb eq_str String.eqb Ascii.eqb Bool.eqb] in H. discriminate H.
  Qed.
  (** A number that refers to itself *)
  Lemma refs_loop i t : In n (fields_to_replace t) -> n <> "TABLE" -> e_with_view E (e_view E) n = Ok i -> fi_type i = "number" -> fi_view i = e_view E ->
    fi_sql i = Ok (Some t) -> contains "{%" t = false -> forall k out, refs E k (e_view E) t <> Ok out.
  Proof.
    intros I NT W NU V S C. induction k as [|k IH]; intros out H; cbn [refs] in H; [discriminate H|].
    destruct (concatM_ok_all _ _ _ H n I) as [ys Y]. destruct (String.eqb_spec n "TABLE"); [contradiction|]. rewrite W, NU in Y. cbn [String.eqb Ascii.eqb Bool.eqb] in Y.
    rewrite S in Y. cbn [bind] in Y. rewrite C, V in Y. exact (IH ys Y).
  Qed.
  Theorem C63_self_reference_refuted d i t : is_text d "name" n -> is_text d "field_type" "dimension" \/ is_text d "field_type" "measure" -> is_text d "type" "number" ->
    value d "sql" Str -> lacks d "case" -> sql E n (qualify_filters E d) = Ok (Some (YStr t)) ->
    In n (fields_to_replace t) -> n <> "TABLE" -> e_with_view E (e_view E) n = Ok i -> fi_type i = "number" -> fi_view i = e_view E -> fi_sql i = Ok (Some t) -> contains "{%" t = false ->
    forall o, errors E fuel d <> Ok o.
  Proof.
    intros N F T S CA SQ I NT W NU V FS C. assert (LOOP := refs_loop i t I NT W NU V FS C fuel).
    assert (FT : ftype d = "dimension" \/ ftype d = "measure") by (destruct F as [F|F]; apply ftype_text in F; auto; discriminate).
    assert (T1 : is_text (qualify_filters E d) "type" "number") by (apply q_text; [discriminate|exact T]).
    assert (S1 : value (qualify_filters E d) "sql" Str) by (apply q_value; [discriminate|exact S]).
    assert (OWN : forall k, own_sql_errors E fuel n (qualify_filters E d) <> Ok k).
    { intros k K. unfold own_sql_errors in K. rewrite SQ in K. cbn [bind] in K. unfold sql_errors in K. apply bind_ok in K. destruct K as [x [K _]].
      unfold referenced in K. rewrite SQ in K. cbn [bind] in K. rewrite C in K. unfold ytype in K.
      assert (X1 : eq_str (get "type" (qualify_filters E d)) "cumulative" = false) by (apply eq_str_not; unfold is_text in *; congruence).
      assert (X2 : eq_str (get "type" (qualify_filters E d)) "duration" = false) by (apply eq_str_not; unfold is_text in *; congruence).
      rewrite X1, X2 in K. cbn [andb] in K. apply bind_ok in K. destruct K as [l [L _]]. cbn [refs_of] in L. exact (LOOP l L). }
    apply kind_fails; [| | |destruct FT as [->| ->]; cbn; auto|exact N].
    - intros k K _. unfold dimension_errors in K. apply bind_ok in K. destruct K as [x [K _]].
      apply (q_lacks "case" d) in CA; [|discriminate]. apply get_str in S1. apply has_false in CA. rewrite S1, CA in K. cbn [negb andb] in K. exact (OWN x K).
    - intros k _ X. destruct FT; congruence.
    - intros k K _. unfold measure_errors in K. cbv zeta in K. apply bind_ok in K. destruct K as [x1 [_ K]]. apply bind_ok in K. destruct K as [x2 [K _]].
      assert (HS : has "sql" (qualify_filters E d) = true) by (apply has_true; destruct S1 as (w & X & _); unfold lacks; congruence).
      assert (X1 : eq_str (ytype (qualify_filters E d)) "cumulative" = false) by (apply eq_str_not; unfold is_text in *; congruence).
      rewrite HS, X1 in K. cbn [negb andb] in K.
      assert (B : bad "sql" is_str (qualify_filters E d) = false).
      { apply get_str in S1. unfold bad. destruct (get "sql" (qualify_filters E d)); [rewrite S1; reflexivity|discriminate S1]. }
      rewrite B in K. exact (OWN x2 K).
  Qed.
  (** The value of a filter that is a text is never reported; when it cannot be read, validation raises *)
  Theorem C63_text_filter_value_refuted d rs d' : is_text d "name" n -> errors E fuel d = Ok (rs, d') -> forall s, ~ In (RFilterValue (YStr s)) rs.
  Proof.
    intros N H s I. apply (C63_exact_partial d rs d' N H) in I. unfold breaks, common_breaks, filter_breaks, canon_breaks, dimension_breaks, group_breaks, measure_breaks in I.
    destruct I as [[]|[(f & _ & _ & X & _)|[[]|[(_ & [])|[(_ & [])|(_ & [])]]]]]. apply X. eexists. reflexivity.
  Qed.

  (** *** Personal fields *)
  Theorem C63_personal d es d' : value d "is_personal_field" Filled -> collect_errors E fuel d = Ok (es, d') -> forall w r, In (w, r) es -> 1 <= w.
  Proof.
    intros P H w r I. unfold collect_errors in H. apply bind_ok in H. destruct H as [[rs d0] [X H]]. apply on_true in P. rewrite P in H. apply ok_inj in H. injection H as <- <-.
    apply in_map_iff in I. destruct I as (r' & Y & _). injection Y as <- <-. lia.
  Qed.
  (** ... and the messages that already begin with the prefix get it twice *)
  Theorem C63_prefix_once_refuted d es d' : value d "is_personal_field" Filled -> collect_errors E fuel d = Ok (es, d') ->
    forall w r, In (w, r) es -> (w = 2 <-> r = RCase \/ r = RNoDate false).
  Proof.
    intros P H w r I. unfold collect_errors in H. apply bind_ok in H. destruct H as [[rs d0] [X H]]. apply on_true in P. rewrite P in H. apply ok_inj in H. injection H as <- <-.
    apply in_map_iff in I. destruct I as (r' & Y & _). injection Y as <- <-.
    destruct r'; cbn [warns]; try (split; [discriminate | intros [Y|Y]; discriminate Y]); [|destruct merged]; (split; [auto|]); try reflexivity; try discriminate. intros [Y|Y]; discriminate Y.
  Qed.

  (** *** What a definition without errors can be used for *)
  Theorem C63_timeframes_render d rs d' dt zone o qt t : is_text d "name" n -> errors E fuel d = Ok (rs, d') -> (forall r, ~ In r rs) ->
    is_text d "field_type" "dimension_group" -> is_text d "type" "time" -> element d "timeframes" t -> Timeframe_Props.supported qt ->
    exists s, t = YStr s /\ (In s ["week"; "week_index"; "week_of_year"; "week_of_month"] \/ exists e, Timeframe_Model.time_sql dt zone o qt s = Ok e).
  Proof.
    intros N H NE F T EL SU. assert (OK : OneOf timeframe_names t).
    { destruct (str_in (Some t) timeframe_names) eqn:X; [apply str_in_oneof; exact X|]. apply str_in_not in X. exfalso. apply (NE (RTimeframe t)). apply (C63_exact_partial d rs d' N H).
      unfold breaks. right. right. right. right. left. split; [exact F|]. cbn [group_breaks]. split; [apply q_text; [discriminate|exact T]|]. split; [apply q_element; [discriminate|exact EL]|exact X]. }
    destruct OK as (s & -> & I). exists s. split; [reflexivity|].
    assert (FR : In s ["week"; "week_index"; "week_of_year"; "week_of_month"] \/ exists f, assoc s Timeframe_Model.frames = Some f).
    { unfold timeframe_names in I. repeat (destruct I as [<-|I]; [first [left; cbn; tauto | right; eexists; reflexivity]|]). destruct I. }
    destruct FR as [FR|[f FR]]; [left; exact FR|right].
    unfold Timeframe_Model.time_sql. unfold Timeframe_Props.supported in SU.
    assert (Z : exists s1, (if zone then Timeframe_Model.apply_timezone dt Timeframe_Model.XCol qt else Ok Timeframe_Model.XCol) = Ok s1).
    { destruct zone; [|eauto]. unfold Timeframe_Model.apply_timezone. repeat (destruct SU as [<-|SU]; [eexists; reflexivity|]). destruct SU. }
    destruct Z as [s1 Z]. rewrite Z. cbn [bind]. rewrite FR.
    assert (TB : exists g, Timeframe_Model.table qt dt = Some g) by (repeat (destruct SU as [<-|SU]; [eexists; reflexivity|]); destruct SU).
    destruct TB as [g TB]. rewrite TB.
    assert (FO : exists s2, (if Timeframe_Model.is_fiscal f then Timeframe_Model.fiscal o s1 qt else Ok s1) = Ok s2).
    { destruct (Timeframe_Model.is_fiscal f); [|eauto]. unfold Timeframe_Model.fiscal. destruct (o =? 0)%Z; [eauto|]. repeat (destruct SU as [<-|SU]; [eexists; reflexivity|]). destruct SU. }
    destruct FO as [s2 FO]. rewrite FO. cbn [bind]. eauto.
  Qed.
  Theorem C63_intervals_render d rs d' qt t : is_text d "name" n -> errors E fuel d = Ok (rs, d') -> (forall r, ~ In r rs) ->
    is_text d "field_type" "dimension_group" -> is_text d "type" "duration" -> element d "intervals" t -> In qt Duration_Props.warehouses ->
    exists s e, t = YStr s /\ Duration_Model.duration_sql qt (Duration_Model.plural s) = Ok e.
  Proof.
    intros N H NE F T EL SU. assert (OK : OneOf interval_names t).
    { destruct (str_in (Some t) interval_names) eqn:X; [apply str_in_oneof; exact X|]. apply str_in_not in X. exfalso. apply (NE (RInterval t)). apply (C63_exact_partial d rs d' N H).
      unfold breaks. right. right. right. right. left. split; [exact F|]. cbn [group_breaks]. split; [apply q_text; [discriminate|exact T]|]. split; [apply q_element; [discriminate|exact EL]|exact X]. }
    destruct OK as (s & -> & I).
    assert (U : In (Duration_Model.plural s) (map fst Duration_Model.units)).
    { unfold interval_names in I. repeat (destruct I as [<-|I]; [cbn; tauto|]). destruct I. }
    assert (D := Duration_Props.C51_refused qt (Duration_Model.plural s)).
    destruct (Duration_Model.duration_sql qt (Duration_Model.plural s)) as [e|x] eqn:DS; [eauto|]. exfalso.
    assert (x = QueryError). { unfold Duration_Model.duration_sql in DS. destruct (if mem qt _ then _ else _) in DS; congruence. }
    subst x. apply D; auto.
  Qed.
End Props.
Print Assumptions C63_exact_partial.
Print Assumptions C63_definition_kept.
Print Assumptions C63_time_key_missing_refuted.
Print Assumptions C63_intervals_missing_refuted.
Print Assumptions C63_window_key_missing_refuted.
Print Assumptions C63_cumulative_measure_refuted.
Print Assumptions C63_empty_tiers_refuted.
Print Assumptions C63_star_refuted.
Print Assumptions C63_self_reference_refuted.
Print Assumptions C63_text_filter_value_refuted.
Print Assumptions C63_personal.
Print Assumptions C63_prefix_once_refuted.
Print Assumptions C63_timeframes_render.
Print Assumptions C63_intervals_render.

(** A filter on the field itself is left out of its SQL, but after a validation it is applied *)
Theorem C63_validation_changes_filters_refuted E n d f : get "filters" d = Some (YList [YDict f]) -> is_text f "field" n -> contains "." n = false ->
  filters_to_apply n d = Ok [] /\ filters_to_apply n (qualify_filters E d) = Ok [qualify_filter E f].
Proof.
  intros G F C. split.
  - unfold filters_to_apply. rewrite G. cbn [mapM bind]. unfold is_text in F. cbn [List.filter]. unfold get. rewrite F. cbn [eq_str]. rewrite String.eqb_refl. reflexivity.
  - unfold qualify_filters, filters, on, has. rewrite G. cbn [truthy andb]. unfold filters_to_apply. rewrite set_key_get. cbn [String.eqb Ascii.eqb Bool.eqb map mapM bind List.filter].
    rewrite qualify_filter_field. unfold get. unfold is_text in F. rewrite F. cbn [eq_str]. unfold full. rewrite C.
    destruct (String.eqb_spec (e_view E ++ "." ++ n) n) as [X|_]; [|reflexivity]. exfalso.
    assert (L : String.length (e_view E ++ "." ++ n)%string = String.length n) by (rewrite X; reflexivity).
    revert L. clear. induction (e_view E) as [|c v IH]; cbn [append String.length]; [lia|]. intros L. apply IH. exfalso.
    assert (Q : forall s, String.length n <= String.length (s ++ String "." n)%string) by (induction s; cbn [append String.length]; lia). specialize (Q v). lia.
Qed.
Print Assumptions C63_validation_changes_filters_refuted.

(** *** Cases *)
Definition sample : fenv :=
  let order := FInfo "orders" "dimension_group" "time" None (Ok (Some "x")) in
  let revenue := FInfo "orders" "measure" "sum" (Some "orders.order") (Ok (Some "${TABLE}.revenue")) in
  let loop := FInfo "orders" "measure" "number" (Some "orders.order") (Ok (Some "${loop} + 1")) in
  let find s := if mem s ["order"; "orders.order"] then Ok order else if mem s ["revenue"; "orders.revenue"] then Ok revenue
                else if mem s ["loop"; "orders.loop"] then Ok loop else Err AccessDenied in
  {| e_view := "orders"; e_default_date := Some "order"; e_reserved := ["date"]; e_grants := ["finance"];
     e_get_field := find; e_by_name := find; e_with_view := fun _ s => find s;
     e_drill := fun l => Ok (flat_map (fun v => match v with YStr s => [s] | _ => [] end) l); e_readable := fun f => match get "value" f with Some (YStr _) => true | _ => false end;
     e_case := fun _ => Ok "case"; e_count_sql := Ok "*";
     e_translate := fun v fs _ => if existsb (fun f => eq_str (get "value" f) "a, -b") fs then Err QueryError else Ok "case when f then x end";
     e_tier := fun _ _ => "tier"; e_paren := fun v => match v with YStr s => s | _ => "" end |}.
Definition clean : ydict := [("name", YStr "margin"); ("field_type", YStr "measure"); ("type", YStr "number"); ("sql", YStr "${revenue} / 2"); ("filters", YList [YDict [("field", YStr "order"); ("value", YStr "-NULL")]])].
(** a measure without errors; its filter is completed *)
Example C63_clean_case : errors sample 5 clean = Ok ([], set_key "filters" (YList [YDict [("field", YStr "orders.order"); ("value", YStr "-NULL")]]) clean).
Proof. vm_compute. reflexivity. Qed.
(** a dimension with several broken rules *)
Example C63_errors_case :
  errors sample 5 [("name", YStr "date"); ("field_type", YStr "dimension"); ("type", YStr "tier"); ("sql", YStr "${nothing}"); ("tiers", YList [YInt 1; YStr "2"]); ("label", YInt 3); ("colour", YStr "red");
                   ("required_access_grants", YList [YStr "finance"; YStr "sales"])]
  = Ok ([RReserved; RLabel; RGrant "sales"; RTier (YStr "2"); RProperty "colour"],
        [("name", YStr "date"); ("field_type", YStr "dimension"); ("type", YStr "tier"); ("sql", YStr "${nothing}"); ("tiers", YList [YInt 1; YStr "2"]); ("label", YInt 3); ("colour", YStr "red");
         ("required_access_grants", YList [YStr "finance"; YStr "sales"])]).
Proof. vm_compute. reflexivity. Qed.
(** a reference that is not there *)
Example C63_reference_case : exists rs d, errors sample 5 [("name", YStr "m"); ("field_type", YStr "measure"); ("type", YStr "sum"); ("sql", YStr "${nothing} + ${TABLE}.x")] = Ok (rs, d) /\ rs = [RBadRef "nothing"].
Proof. eexists. eexists. split; [vm_compute; reflexivity|reflexivity]. Qed.
(** a filter that cannot be read makes validation raise *)
Example C63_filter_raises_case :
  errors sample 5 [("name", YStr "m"); ("field_type", YStr "measure"); ("type", YStr "sum"); ("sql", YStr "${TABLE}.x"); ("filters", YList [YDict [("field", YStr "order"); ("value", YStr "a, -b")]])] = Err QueryError.
Proof. vm_compute. reflexivity. Qed.
Example C63_loop_case : errors sample 50 [("name", YStr "loop"); ("field_type", YStr "measure"); ("type", YStr "number"); ("sql", YStr "${loop} + 1")] = Err RecursionError.
Proof. vm_compute. reflexivity. Qed.
Example C63_timeframes_case : exists d, errors sample 5 [("name", YStr "created"); ("field_type", YStr "dimension_group"); ("type", YStr "time"); ("sql", YStr "${TABLE}.c"); ("timeframes", YList [YStr "date"; YStr "month"])] = Ok ([], d).
Proof. eexists. vm_compute. reflexivity. Qed.
Example C63_intervals_case : exists d, errors sample 5 [("name", YStr "waiting"); ("field_type", YStr "dimension_group"); ("type", YStr "duration"); ("sql_start", YStr "${TABLE}.a"); ("sql_end", YStr "${TABLE}.b"); ("intervals", YList [YStr "day"])] = Ok ([], d).
Proof. eexists. vm_compute. reflexivity. Qed.
(** a personal field: its missing date is a warning twice *)
Example C63_personal_case :
  exists d, collect_errors {| e_view := "orders"; e_default_date := None; e_reserved := []; e_grants := []; e_get_field := e_get_field sample; e_by_name := e_by_name sample; e_with_view := e_with_view sample;
      e_drill := e_drill sample; e_readable := e_readable sample; e_case := e_case sample; e_count_sql := e_count_sql sample; e_translate := e_translate sample; e_tier := e_tier sample; e_paren := e_paren sample |} 5
    [("name", YStr "m"); ("field_type", YStr "measure"); ("type", YStr "sum"); ("sql", YStr "${TABLE}.x"); ("is_personal_field", YBool true); ("label", YInt 1)] = Ok ([(1, RLabel); (2, RNoDate false)], d).
Proof. eexists. vm_compute. reflexivity. Qed.
