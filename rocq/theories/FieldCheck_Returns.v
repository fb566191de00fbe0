(** C63: definitions for which the validation of a field returns. *)
From Coq Require Import List String ZArith Bool.
From Verif Require Import PyBase PyStr PyRefs PyReplace PyList Names_Model Names_Props FieldCheck_Model FieldCheck_Spec FieldCheck_Proofs FieldCheck_Kinds FieldCheck_Props.
Import ListNotations.
Local Open Scope string_scope.
Local Open Scope list_scope.

Definition returns {A} (r : res A) : Prop := exists x, r = Ok x.
Lemma returns_ok {A} (x : A) : returns (Ok x). Proof. now exists x. Qed.
Lemma returns_bind {A B} (r : res A) (k : A -> res B) : returns r -> (forall x, r = Ok x -> returns (k x)) -> returns (bind r k).
Proof. intros [x ->] H. exact (H x eq_refl). Qed.
Lemma returns_concat {A B} (f : A -> res (list B)) l : (forall x, In x l -> returns (f x)) -> returns (concatM f l).
Proof. intros H. exists (flat_map (fun x => match f x with Ok b => b | Err _ => [] end) l). apply concatM_total. exact H. Qed.
#[local] Hint Resolve returns_ok : core.

(** What the project answers: names are found or missing (a date may be ambiguous), SQL can be made *)
Record calm (E : fenv) : Prop := Calm {
  calm_field : forall q e, e_get_field E q = Err e -> e = AccessDenied;
  calm_view : forall v q e, e_with_view E v q = Err e -> e = AccessDenied;
  calm_date : forall q e, e_by_name E q = Err e -> e = AccessDenied \/ e = QueryError;
  calm_drill : forall l, exists ns, e_drill E l = Ok ns;
  calm_case : forall c, exists t, e_case E c = Ok t /\ t <> "*";
  calm_count : exists t, e_count_sql E = Ok t;
  calm_translate : forall v fs m, exists t, e_translate E v fs m = Ok t;
  calm_sql : forall v q i, e_with_view E v q = Ok i -> exists t, fi_sql i = Ok t
}.
(** The number fields that a text refers to nest at most [k] deep *)
Fixpoint nested (E : fenv) (k : nat) (view s : string) : Prop :=
  match k with
  | 0 => False
  | S k => forall r i t, In r (fields_to_replace s) -> r <> "TABLE" -> e_with_view E view r = Ok i -> fi_type i = "number" -> fi_sql i = Ok (Some t) -> contains "{%" t = false -> nested E k (fi_view i) t
  end.
(** What the definition must have *)
Definition text_or_none (d : ydict) (k : string) : Prop := lacks d k \/ value d k Str.
Record tame (E : fenv) (d : ydict) : Prop := Tame {
  tame_filters : lacks d "filters" \/ value d "filters" List_;
  tame_filter : forall f, element d "filters" (YDict f) -> text_or_none f "field";
  tame_sql : text_or_none d "sql";
  tame_start : text_or_none d "sql_start";
  tame_end : text_or_none d "sql_end";
  tame_tiers : is_text d "type" "tier" -> assoc "tiers" d <> Some (YList []);
  tame_star : lacks d "filters" /\ lacks d "non_additive_dimension" \/ ~ is_text d "sql" "*" /\ (lacks d "sql" -> e_count_sql E <> Ok "*");
  tame_measure : text_or_none d "measure";
  tame_nad : forall m, assoc "non_additive_dimension" d = Some (YDict m) -> m <> [] -> value m "name" Str /\ ~ lacks m "window_choice" /\ (forall v, element m "window_groupings" v -> Str v);
  tame_time : is_text d "field_type" "dimension_group" -> is_text d "type" "time" -> ~ lacks d "timeframes" /\ ~ lacks d "sql";
  tame_duration : is_text d "field_type" "dimension_group" -> is_text d "type" "duration" -> ~ lacks d "intervals";
  tame_cumulative : is_text d "type" "cumulative" -> is_text d "field_type" "measure"
}.

Section Returns.
  Variable E : fenv.
  Variable fuel : nat.
  Variable n : string.
  Hypothesis C : calm E.
  Hypothesis NE : forall s, nested E fuel (e_view E) s.

  Lemma refs_returns k view s : nested E k view s -> returns (refs E k view s).
  Proof.
    revert view s. induction k as [|k IH]; intros view s H; cbn [nested] in H; [destruct H|]. cbn [refs]. apply returns_concat. intros r I. destruct (String.eqb r "TABLE") eqn:T; [auto|]. apply String.eqb_neq in T.
    destruct (e_with_view E view r) as [i|e] eqn:V; [|rewrite (calm_view E C _ _ _ V); auto]. destruct (String.eqb (fi_type i) "number") eqn:Y; [|auto]. apply String.eqb_eq in Y.
    destruct (calm_sql E C _ _ _ V) as [t Q]. rewrite Q. cbn [bind]. destruct t as [t|]; [|auto]. destruct (contains "{%" t) eqn:L; [auto|]. apply IH. exact (H r i t I T V Y Q L).
  Qed.
  Lemma ask_view v q {A} (k : finfo -> res A) (a : A) : (forall i, returns (k i)) -> returns (match e_with_view E v q with Ok i => k i | Err AccessDenied => Ok a | Err e => Err e end).
  Proof. intros K. destruct (e_with_view E v q) as [i|e] eqn:V; [apply K|]. rewrite (calm_view E C _ _ _ V). auto. Qed.
  Lemma ask_field q {A} (a b : A) : returns (match e_get_field E q with Ok _ => Ok a | Err AccessDenied => Ok b | Err e => Err e end).
  Proof. destruct (e_get_field E q) as [i|e] eqn:V; [auto|]. rewrite (calm_field E C _ _ V). auto. Qed.

  Section Def.
  Variable d : ydict.
  Hypothesis T : tame E d.
  Lemma text_cases k : text_or_none d k -> get k d = None \/ exists s, get k d = Some (YStr s).
  Proof. intros [H|(v & H & s & ->)]; [left; exact H|right; exists s; exact H]. Qed.
  Lemma filters_list : exists l, filters d = YList l /\ (lacks d "filters" -> l = []).
  Proof.
    unfold filters, on, get. destruct (tame_filters E d T) as [H|(v & H & l & ->)].
    - unfold lacks in H. rewrite H. exists []. auto.
    - rewrite H. destruct l as [|a l]; cbn [truthy]; eexists; (split; [reflexivity|auto]). intros L. unfold lacks in L. congruence.
  Qed.
  Lemma apply_returns : returns (filters_to_apply n d) \/ filters_to_apply n d = Err AttributeError.
  Proof.
    unfold filters_to_apply, get. destruct (tame_filters E d T) as [H|(v & H & l & ->)].
    - unfold lacks in H. rewrite H. auto.
    - rewrite H. destruct (mapM (fun v => match v with YDict f => Ok f | _ => Err AttributeError end) l) as [fs|e] eqn:M; cbn [bind]; [auto|]. right. f_equal.
      clear -M. revert e M. induction l as [|a l IH]; intros e M; cbn [mapM] in M; [discriminate M|]. destruct a; cbn [bind] in M; try congruence.
      destruct (mapM (fun v => match v with YDict f => Ok f | _ => Err AttributeError end) l); cbn [bind] in M; [discriminate M|]. injection M as <-. apply IH. reflexivity.
  Qed.
  Lemma nad_returns : exists o, nad E d = Ok o /\ (lacks d "non_additive_dimension" -> o = None).
  Proof.
    unfold nad, get. destruct (assoc "non_additive_dimension" d) as [v|] eqn:H; [|exists None; auto].
    assert (L : lacks d "non_additive_dimension" -> False) by (unfold lacks; congruence). destruct v as [| | | | | |m]; try (eexists; split; [reflexivity|intros X; destruct (L X)]).
    destruct m as [|x r]; [eexists; split; [reflexivity|intros X; destruct (L X)]|]. destruct (tame_nad E d T _ H ltac:(discriminate)) as ((v & N & s & ->) & W & G). rewrite N.
    destruct (assoc "window_groupings" (set_key "name" (YStr (qualify E s)) (x :: r))) as [w|] eqn:WG; [|eexists; split; [reflexivity|intros X; destruct (L X)]].
    destruct w as [| | | | |l|]; try (eexists; split; [reflexivity|intros X; destruct (L X)]).
    assert (A : assoc "window_groupings" (x :: r) = Some (YList l)) by (change (get "window_groupings" (set_key "name" (YStr (qualify E s)) (x :: r)) = Some (YList l)) in WG; rewrite set_key_get in WG; exact WG).
    assert (S : forallb is_str l = true) by (apply forallb_forall; intros v I; destruct (G v) as [t ->]; [exists l; auto|reflexivity]). rewrite S. eexists; split; [reflexivity|intros X; destruct (L X)].
  Qed.
  Lemma finish_returns s : (lacks d "filters" /\ lacks d "non_additive_dimension" \/ s <> "*") -> sql_finish E n d (YStr s) = Err AttributeError \/ exists t, sql_finish E n d (YStr s) = Ok (Some (YStr t)).
  Proof.
    intros ST. unfold sql_finish. destruct nad_returns as (o & NO & NL). destruct filters_list as (l & FL & LL). rewrite FL, NO.
    assert (TR : forall v : yv, (exists w, v = YStr w) -> exists t, (let v' := if eq_str (ytype d) "yesno" then YStr ("(" ++ e_paren E v ++ ")")%string else v in Ok (Some (match v' with YStr s => YStr (clean_case s) | _ => v' end))) = Ok (Some (YStr t))).
    { intros v [w ->]. cbv zeta. destruct (eq_str (ytype d) "yesno"); eexists; reflexivity. }
    assert (TI : forall v : yv, (exists w, v = YStr w) -> exists v', (if eq_str (ytype d) "tier" then match get "tiers" d with Some (YList []) => Err IndexError | Some (YList l) => Ok (YStr (e_tier E v l)) | _ => Ok v end else Ok v) = Ok v' /\ exists w, v' = YStr w).
    { intros v [w ->]. destruct (eq_str (ytype d) "tier") eqn:Y; [|eauto]. assert (YT : is_text d "type" "tier").
      { unfold eq_str, ytype, get in Y. unfold is_text. destruct (assoc "type" d) as [[]|]; try discriminate Y. apply String.eqb_eq in Y. congruence. }
      pose proof (tame_tiers E d T YT) as NT. unfold get. destruct (assoc "tiers" d) as [[| | | | |l'|]|]; eauto. destruct l' as [|a l']; [contradiction|]. eauto. }
    assert (Rest : forall v : yv, (exists w, v = YStr w) -> exists t,
      (v <- (if eq_str (ytype d) "tier" then match get "tiers" d with Some (YList []) => Err IndexError | Some (YList l) => Ok (YStr (e_tier E v l)) | _ => Ok v end else Ok v) ;;
       let v' := if eq_str (ytype d) "yesno" then YStr ("(" ++ e_paren E v ++ ")")%string else v in Ok (Some (match v' with YStr s => YStr (clean_case s) | _ => v' end))) = Ok (Some (YStr t))).
    { intros v H. destruct (TI v H) as (v' & -> & H'). cbn [bind]. apply TR. exact H'. }
    assert (M : exists m, (if truthy (YList l) then Ok (Some YNull) else Ok o) = (Ok m : res (option yv))) by (destruct (truthy (YList l)); eauto). destruct M as [m M]. rewrite M. cbn [bind].
    destruct (truthy (YList l) || nad_on m) eqn:G; [|right; apply Rest; eauto].
    assert (S : eq_str (Some (YStr s)) "*" = false).
    { cbn [eq_str]. apply String.eqb_neq. destruct ST as [[A B]|ST]; [|exact ST]. exfalso. rewrite (LL A) in *. rewrite (NL B) in *. cbn [truthy] in M, G. injection M as <-. discriminate G. }
    rewrite S. destruct apply_returns as [[fs F]|F]; rewrite F; cbn [bind]; [|left; reflexivity].
    destruct (nad_on o) eqn:ON.
    - destruct o as [[| | | | | |mm]|]; cbn [bind]; try (left; reflexivity). destruct (calm_translate E C (YStr s) fs (Some mm)) as [t ->]. cbn [bind]. right. apply Rest. eauto.
    - cbn [bind]. destruct (calm_translate E C (YStr s) fs None) as [t ->]. cbn [bind]. right. apply Rest. eauto.
  Qed.
  Lemma sql_returns : sql E n d = Ok None \/ exists t, sql E n d = Ok (Some (YStr t)).
  Proof.
    assert (B : sql_body E n d = Ok None \/ sql_body E n d = Err AttributeError \/ exists t, sql_body E n d = Ok (Some (YStr t))).
    { unfold sql_body. destruct (text_cases "sql" (tame_sql E d T)) as [H|[s H]]; rewrite H.
      - destruct (get "case" d) as [c|].
        + destruct (calm_case E C c) as (t & -> & NS). cbn [bind]. right. apply finish_returns. auto.
        + destruct (String.eqb (ftype d) "measure" && eq_str (ytype d) "count"); [|auto]. destruct (calm_count E C) as [t CT]. rewrite CT. cbn [bind]. right. apply finish_returns.
          destruct (tame_star E d T) as [A|[_ A]]; [auto|]. right. intros ->. exact (A H CT).
      - right. apply finish_returns. destruct (tame_star E d T) as [A|[A _]]; [auto|]. right. intros ->. exact (A H). }
    unfold sql. destruct B as [->|[->|[t ->]]]; [auto| |eauto]. destruct (text_cases "sql" (tame_sql E d T)) as [->|[s ->]]; eauto.
  Qed.
  Lemma side_cases k : text_or_none d k -> sql_side k d = None \/ exists s, sql_side k d = Some (YStr s).
  Proof. intros H. unfold sql_side. destruct (text_cases k H) as [->|[s ->]]; eauto. Qed.
  Lemma refs_of_returns v : v = None \/ (exists s, v = Some (YStr s)) -> returns (refs_of E fuel v).
  Proof. intros [->|[s ->]]; cbn [refs_of]; [auto|]. apply refs_returns. apply NE. Qed.
  Lemma measure_cases : exists o, measure E d = Ok o /\ (forall v, o <> Some (inl v)) \/ measure E d = Err AccessDenied.
  Proof.
    unfold measure. destruct (text_cases "measure" (tame_measure E d T)) as [->|[s ->]]; [exists None; left; split; [reflexivity|discriminate]|]. destruct (truthy (YStr s)); [|exists None; left; split; [reflexivity|discriminate]].
    destruct (e_with_view E (e_view E) s) as [i|e] eqn:V; cbn [bind]; [exists (Some (inr i)); left; split; [reflexivity|discriminate]|]. exists None. right. rewrite (calm_view E C _ _ _ V). reflexivity.
  Qed.
  Lemma referenced_returns : ~ is_text d "type" "cumulative" -> returns (referenced E fuel n d).
  Proof.
    intros NC. unfold referenced. assert (CU : eq_str (ytype d) "cumulative" = false).
    { destruct (eq_str (ytype d) "cumulative") eqn:Y; [|reflexivity]. exfalso. apply NC. unfold eq_str, ytype, get in Y. unfold is_text. destruct (assoc "type" d) as [[]|]; try discriminate Y. apply String.eqb_eq in Y. congruence. }
    assert (R : forall v, v = None \/ (exists s, v = Some (YStr s)) -> returns (l <- refs_of E fuel v ;; Ok (Some l))) by (intros v H; apply returns_bind; [apply refs_of_returns; exact H|auto]).
    assert (D : forall v, v = None \/ (exists s, v = Some (YStr s)) -> returns (if eq_str (ytype d) "cumulative" then m <- measure E d ;; Ok (Some [])
      else if eq_str (ytype d) "duration" && nad_on (sql_side "sql_start" d) && nad_on (sql_side "sql_end" d) then a <- refs_of E fuel (sql_side "sql_start" d) ;; b <- refs_of E fuel (sql_side "sql_end" d) ;; Ok (Some (a ++ b))
      else l <- refs_of E fuel v ;; Ok (Some l))).
    { intros v H. rewrite CU. destruct (eq_str (ytype d) "duration" && nad_on (sql_side "sql_start" d) && nad_on (sql_side "sql_end" d)); [|apply R; exact H].
      apply returns_bind; [apply refs_of_returns; apply side_cases; apply (tame_start E d T)|]. intros a _. apply returns_bind; [apply refs_of_returns; apply side_cases; apply (tame_end E d T)|]. auto. }
    destruct sql_returns as [->|[t ->]]; cbn [bind].
    - apply D. auto.
    - destruct (contains "{%" t); [auto|]. apply D. eauto.
  Qed.
  Lemma errors_of_sql s : ~ is_text d "type" "cumulative" -> returns (sql_errors E fuel n d s).
  Proof. intros NC. unfold sql_errors. apply returns_bind; [apply referenced_returns; exact NC|]. auto. Qed.
  Lemma own_returns : ~ is_text d "type" "cumulative" -> returns (own_sql_errors E fuel n d).
  Proof. intros NC. unfold own_sql_errors. destruct sql_returns as [->|[t ->]]; cbn [bind]; [auto|]. apply errors_of_sql. exact NC. Qed.
  Lemma type_is s : eq_str (ytype d) s = true -> is_text d "type" s.
  Proof. unfold eq_str, ytype, get, is_text. destruct (assoc "type" d) as [[]|]; try discriminate. intros Y. apply String.eqb_eq in Y. congruence. Qed.
  Lemma type_not s t : is_text d "type" t -> s <> t -> ~ is_text d "type" s.
  Proof. unfold is_text. intros A B H. congruence. Qed.
  Lemma dimension_returns : is_text d "field_type" "dimension" -> returns (dimension_errors E fuel n d).
  Proof.
    intros F. unfold dimension_errors. apply returns_bind.
    - destruct (negb (match get "sql" d with Some v => is_str v | None => false end) && negb (has "case" d)); [auto|]. destruct (has "case" d); [auto|]. apply own_returns. intros Y. pose proof (tame_cumulative E d T Y) as X. unfold is_text in *. congruence.
    - intros s _. apply returns_bind; [|auto]. destruct (get "drill_fields" d) as [[| | | | |l|]|]; auto. destruct l as [|a l]; [auto|]. destruct (calm_drill E C (a :: l)) as [ns ->]. cbn [bind]. apply returns_concat. intros f _. apply ask_field.
  Qed.
  Lemma frames_returns k top none r valid : ~ lacks d k -> returns (frames_errors k top none r valid d).
  Proof. unfold lacks, frames_errors, get. intros L. destruct (assoc k d) as [[| | | | |l|]|]; try contradiction; auto. destruct l; auto. Qed.
  Lemma side_returns k r : text_or_none d k -> ~ is_text d "type" "cumulative" -> returns (side_errors E fuel n k r d).
  Proof. intros H NC. unfold side_errors. destruct (side_cases k H) as [->|[s ->]]; [auto|]. apply errors_of_sql. exact NC. Qed.
  Lemma group_returns : is_text d "field_type" "dimension_group" -> returns (group_errors E fuel n d).
  Proof.
    intros F. unfold group_errors. apply returns_bind; [|auto]. destruct (eq_str (ytype d) "time") eqn:YT.
    - apply type_is in YT. destruct (tame_time E d T F YT) as [A B]. apply returns_bind; [apply frames_returns; exact A|]. intros fr _. apply returns_bind; [|auto].
      unfold time_sql_errors. destruct (text_cases "sql" (tame_sql E d T)) as [Q|[s ->]]; [contradiction|]. apply own_returns. apply (type_not _ _ YT). discriminate.
    - destruct (eq_str (ytype d) "duration") eqn:YD; [|auto]. apply type_is in YD. assert (NC : ~ is_text d "type" "cumulative") by (apply (type_not _ _ YD); discriminate).
      apply returns_bind; [apply frames_returns; apply (tame_duration E d T F YD)|]. intros fr _. apply returns_bind; [apply side_returns; [apply (tame_start E d T)|exact NC]|]. intros a _.
      apply returns_bind; [apply side_returns; [apply (tame_end E d T)|exact NC]|]. auto.
  Qed.
  Lemma merged_returns : returns (merged_result E fuel n d).
  Proof.
    unfold merged_result. destruct (get "is_merged_result" d); [auto|]. destruct (eq_str (ytype d) "number" && String.eqb (ftype d) "measure"); [|auto].
    destruct sql_returns as [->|[t ->]]; cbn [bind]; (apply returns_bind; [apply refs_of_returns; eauto|auto]).
  Qed.
  Lemma nad_errors_returns : returns (nad_errors E d).
  Proof.
    unfold nad_errors. destruct (get "non_additive_dimension" d) as [v|] eqn:G; [|auto]. destruct v as [| | | | | |m]; auto. destruct m as [|x r]; [auto|].
    destruct (tame_nad E d T _ G ltac:(discriminate)) as (N & W & GR). assert (NA : exists mm, nad E d = Ok (Some (YDict mm)) /\ has "window_choice" mm = true).
    { destruct nad_returns as (o & NO & _). unfold nad in NO |- *. rewrite G in *. destruct N as (v & N & s & ->). rewrite N in *.
      assert (H : has "window_choice" (set_key "name" (YStr (qualify E s)) (x :: r)) = true).
      { unfold has. rewrite set_key_get. cbn [String.eqb Ascii.eqb Bool.eqb]. unfold lacks in W. unfold get. destruct (assoc "window_choice" (x :: r)); [reflexivity|contradiction]. }
      destruct (assoc "window_groupings" (set_key "name" (YStr (qualify E s)) (x :: r))) as [w|]; [|eexists; split; [reflexivity|exact H]]. destruct w as [| | | | |l|]; try (eexists; split; [reflexivity|exact H]).
      destruct (forallb is_str l); [|discriminate NO]. destruct l as [|a l]; [eexists; split; [reflexivity|exact H]|]. eexists; split; [reflexivity|]. unfold has in H |- *. rewrite set_key_get. cbn [String.eqb Ascii.eqb Bool.eqb]. exact H. }
    destruct NA as (mm & -> & HW). cbn [bind]. apply returns_bind; [unfold found_errors; apply ask_view; auto|]. intros a _. apply returns_bind.
    - destruct (str_in (get "window_choice" mm) ["max"; "min"]); [auto|]. rewrite HW. auto.
    - intros w _. apply returns_bind; [|auto]. destruct (get "window_groupings" mm) as [[| | | | |l|]|]; auto. apply returns_concat. intros v _. unfold found_errors. apply ask_view. auto.
  Qed.
  Lemma measure_returns : returns (measure_errors E fuel n d).
  Proof.
    unfold measure_errors. cbv zeta. apply returns_bind.
    { assert (B : returns (b <- merged_result E fuel n d ;; Ok [RNoDate b])) by (apply returns_bind; [apply merged_returns|auto]). destruct (canon_date E d) as [v|]; [|exact B]. destruct (truthy v); auto. }
    intros dt _. apply returns_bind.
    { destruct (eq_str (ytype d) "cumulative") eqn:Y; cbn [negb andb]; rewrite ?andb_false_r, ?andb_true_r.
      - destruct sql_returns as [->|[t ->]]; cbn [bind]; auto.
      - destruct (negb (has "sql" d)); [auto|]. destruct (bad "sql" is_str d); [auto|]. apply own_returns. intros X. unfold eq_str, ytype, get in Y. unfold is_text in X. rewrite X in Y. discriminate Y. }
    intros s _. apply returns_bind.
    { destruct (eq_str (ytype d) "cumulative"); [|auto]. unfold cumulative_errors. apply returns_bind; [|auto]. destruct measure_cases as (o & [[-> H]| ->]); [|auto]. destruct o as [[v|i]|]; auto. exfalso. exact (H v eq_refl). }
    intros c _. apply returns_bind.
    { unfold distinct_errors. destruct (str_in (ytype d) requires_sql_distinct_key && negb (on "sql_distinct_key" d)); [auto|]. destruct (get "sql_distinct_key" d) as [[| | | |t| |]|]; auto.
      apply returns_concat. intros r _. destruct (String.eqb r "TABLE"); [auto|]. apply ask_view. auto. }
    intros k _. apply returns_bind; [apply nad_errors_returns|auto].
  Qed.
  Lemma filters_returns : returns (filters_errors E n d).
  Proof.
    unfold filters_errors. destruct (has "filters" d); [|auto]. destruct filters_list as (l & FL & _). rewrite FL. apply returns_concat. intros v I. destruct v as [| | | | | |f]; auto.
    assert (EL : element d "filters" (YDict f)).
    { unfold filters, get in FL. destruct (on "filters" d); [|injection FL as <-; destruct I]. exists l. split; [|exact I]. destruct (assoc "filters" d); [congruence|]. injection FL as <-. destruct I. }
    assert (FT : get "field" (qualify_filter E f) = None \/ exists s, get "field" (qualify_filter E f) = Some (YStr s)).
    { unfold qualify_filter. destruct (tame_filter E d T f EL) as [X|(w & X & s & ->)]; unfold lacks, get in *.
      - rewrite X. left. exact X.
      - rewrite X. right. exists (qualify E s). change (get "field" (set_key "field" (YStr (qualify E s)) f) = Some (YStr (qualify E s))). rewrite set_key_get. reflexivity. }
    unfold filter_errors. cbv zeta. apply returns_bind; [|auto]. destruct FT as [->|[s ->]]; [auto|]. apply ask_field.
  Qed.
  Lemma canon_returns : returns (canon_errors E d).
  Proof.
    unfold canon_errors. destruct (canon_date E d) as [[| | | |s| |]|]; auto. destruct (String.eqb s (view_default_date E)); [auto|]. destruct (e_by_name E s) as [i|e] eqn:B; [auto|]. destruct (calm_date E C _ _ B) as [->| ->]; auto.
  Qed.
  End Def.

  Lemma q_tame d : tame E d -> tame E (qualify_filters E d).
  Proof.
    intros T. assert (Q : forall k, k <> "filters" -> text_or_none d k -> text_or_none (qualify_filters E d) k).
    { intros k K H. unfold text_or_none. rewrite q_lacks, q_value by exact K. exact H. }
    assert (FL : (lacks d "filters" -> lacks (qualify_filters E d) "filters") /\ (lacks (qualify_filters E d) "filters" \/ value (qualify_filters E d) "filters" List_)).
    { unfold qualify_filters. destruct (filters_list d T) as (l & F & L). rewrite F. destruct (has "filters" d) eqn:H; cbn [andb].
      - split. { intros X. unfold has, get in H. unfold lacks in X. rewrite X in H. discriminate H. }
        destruct l as [|a l]; [apply (tame_filters E d T)|]. right. unfold value. change (exists v, get "filters" (set_key "filters" (YList (map (fun v => match v with YDict f => YDict (qualify_filter E f) | _ => v end) (a :: l))) d) = Some v /\ List_ v).
        rewrite set_key_get. eexists. split; [reflexivity|]. eexists. reflexivity.
      - split; [auto|]. apply (tame_filters E d T). }
    destruct T. destruct FL as [FL1 FL2]. constructor; auto; try (apply Q; [discriminate|assumption]).
    - intros f (l & A & I). unfold qualify_filters in A. assert (T : tame E d) by (constructor; assumption). destruct (filters_list d T) as (l0 & F & L). rewrite F in A.
      assert (OLD : assoc "filters" d = Some (YList l) -> text_or_none f "field") by (intros X; apply tame_filter0; exists l; auto).
      destruct (has "filters" d); cbn [andb] in A; [|auto]. destruct l0 as [|a l0]; [auto|].
      change (get "filters" (set_key "filters" (YList (map (fun v => match v with YDict f => YDict (qualify_filter E f) | _ => v end) (a :: l0))) d) = Some (YList l)) in A. rewrite set_key_get in A. cbn [String.eqb Ascii.eqb Bool.eqb] in A.
      injection A as <-. change (In (YDict f) (map (fun v => match v with YDict f => YDict (qualify_filter E f) | _ => v end) (a :: l0))) in I. apply in_map_iff in I. destruct I as (v & X & I). destruct v as [| | | | | |g]; try discriminate X. injection X as <-.
      assert (G : text_or_none g "field").
      { apply tame_filter0. unfold filters, get in F. destruct (on "filters" d); [|discriminate F]. destruct (assoc "filters" d) as [w|] eqn:AF; [|discriminate F]. subst w. exists (a :: l0). split; [exact AF|exact I]. }
      unfold qualify_filter, text_or_none, lacks, value, get in *. destruct G as [G|(w & G & s & ->)]; rewrite G; [left; exact G|]. right. exists (YStr (qualify E s)). split; [|now exists (qualify E s)].
      change (get "field" (set_key "field" (YStr (qualify E s)) g) = Some (YStr (qualify E s))). rewrite set_key_get. reflexivity.
    - rewrite q_text, q_get by discriminate. exact tame_tiers0.
    - rewrite q_text, (q_lacks E "non_additive_dimension"), (q_lacks E "sql") by discriminate. destruct tame_star0 as [[A B]|A]; [left; auto|right; exact A].
    - intros m. rewrite q_get by discriminate. apply tame_nad0.
    - rewrite !q_text, !q_lacks by discriminate. exact tame_time0.
    - rewrite !q_text, !q_lacks by discriminate. exact tame_duration0.
    - rewrite !q_text by discriminate. exact tame_cumulative0.
  Qed.

  (** A field of the right shape, whatever rules it breaks, is validated without raising *)
  Theorem C63_returns_partial d : is_text d "name" n -> tame E d -> exists es d', collect_errors E fuel d = Ok (es, d').
  Proof.
    intros N T. assert (R : returns (errors E fuel d)).
    { unfold errors. unfold is_text in N. unfold get. rewrite N. cbv zeta. pose proof (q_tame d T) as T'. apply returns_bind; [apply filters_returns; exact T|]. intros fs _.
      apply returns_bind; [apply canon_returns|]. intros c _.
      assert (FT : forall s, String.eqb (ftype d) s = true -> s <> "?" -> is_text (qualify_filters E d) "field_type" s).
      { intros s X Y. apply q_text; [discriminate|]. unfold ftype, get in X. unfold is_text. destruct (assoc "field_type" d) as [[]|]; apply String.eqb_eq in X; congruence. }
      apply returns_bind.
      - destruct (String.eqb (ftype d) "dimension") eqn:F1; [apply dimension_returns; [exact T'|apply FT; [exact F1|discriminate]]|].
        destruct (String.eqb (ftype d) "dimension_group") eqn:F2; [apply group_returns; [exact T'|apply FT; [exact F2|discriminate]]|].
        destruct (String.eqb (ftype d) "measure"); [apply measure_returns; exact T'|auto].
      - intros k _. apply returns_bind; [|auto]. destruct (String.eqb (ftype d) "measure"); [|auto]. destruct (nad_returns _ T') as (o & -> & _). auto. }
    destruct R as [[rs d'] R]. unfold collect_errors. rewrite R. cbn [bind]. eauto.
  Qed.
End Returns.
Print Assumptions C63_returns_partial.

(** A project that meets the conditions, and definitions with and without errors *)
Definition plain_project : fenv :=
  let order := FInfo "orders" "dimension_group" "time" None (Ok (Some "x")) in
  let revenue := FInfo "orders" "measure" "sum" (Some "orders.order") (Ok (Some "${TABLE}.revenue")) in
  let find s := if mem s ["order"; "orders.order"] then Ok order else if mem s ["revenue"; "orders.revenue"] then Ok revenue else Err AccessDenied in
  {| e_view := "orders"; e_default_date := Some "order"; e_reserved := ["date"]; e_grants := ["finance"];
     e_get_field := find; e_by_name := fun s => if String.eqb s "orders.twice" then Err QueryError else find s; e_with_view := fun _ s => find s;
     e_drill := fun l => Ok (flat_map (fun v => match v with YStr s => [s] | _ => [] end) l); e_readable := fun _ => true;
     e_case := fun _ => Ok "case"; e_count_sql := Ok "${TABLE}.id"; e_translate := fun _ _ _ => Ok "case when f then x end";
     e_tier := fun _ _ => "tier"; e_paren := fun _ => "" |}.
Example C63_calm_case : calm plain_project /\ forall s, nested plain_project 1 (e_view plain_project) s.
Proof.
  split.
  - constructor; cbn [plain_project e_get_field e_with_view e_by_name e_drill e_case e_count_sql e_translate]; try (intros; eexists; reflexivity).
    + intros q e. destruct (mem q ["order"; "orders.order"]); [discriminate|]. destruct (mem q ["revenue"; "orders.revenue"]); congruence.
    + intros _ q e. destruct (mem q ["order"; "orders.order"]); [discriminate|]. destruct (mem q ["revenue"; "orders.revenue"]); congruence.
    + intros q e. destruct (String.eqb q "orders.twice"); [intros H; injection H as <-; auto|]. destruct (mem q ["order"; "orders.order"]); [discriminate|]. destruct (mem q ["revenue"; "orders.revenue"]); [discriminate|]. intros H. injection H as <-. auto.
    + intros _. exists "case". split; [reflexivity|discriminate].
    + intros _ q i. destruct (mem q ["order"; "orders.order"]); [intros H; injection H as <-; eexists; reflexivity|]. destruct (mem q ["revenue"; "orders.revenue"]); [|discriminate]. intros H. injection H as <-. eexists. reflexivity.
  - intros s. cbn [nested plain_project e_with_view e_view]. intros r i t _ _. destruct (mem r ["order"; "orders.order"]); [intros H; injection H as <-; discriminate|]. destruct (mem r ["revenue"; "orders.revenue"]); [|discriminate]. intros H. injection H as <-. discriminate.
Qed.
Example C63_tame_case : tame plain_project clean.
Proof.
  constructor; try (left; reflexivity); try (intros X; discriminate X); try (intros X Y; discriminate X).
  - right. eexists. split; [reflexivity|]. eexists. reflexivity.
  - intros f (l & A & I). injection A as <-. destruct I as [X|[]]. injection X as <-. right. eexists. split; [reflexivity|]. eexists. reflexivity.
  - right. eexists. split; [reflexivity|]. eexists. reflexivity.
  - right. split; [discriminate|]. intros X. discriminate X.
  - intros m X. discriminate X.
Qed.
(** A date that is ambiguous is reported *)
Example C63_ambiguous_date_case : exists d', collect_errors plain_project 1 [("name", YStr "m"); ("field_type", YStr "measure"); ("type", YStr "sum"); ("sql", YStr "${TABLE}.x"); ("canon_date", YStr "twice")] = Ok ([(0, RCanonMissing)], d').
Proof. eexists. vm_compute. reflexivity. Qed.

(** A cumulative measure over a measure that is missing or ambiguous is reported, whatever else the project answers *)
Theorem C63_cumulative_reported E fuel d n m e : is_text d "name" n -> is_text d "field_type" "measure" -> is_text d "type" "cumulative" -> is_text d "measure" m ->
  (forall k, In k ["filters"; "sql"; "case"; "canon_date"; "sql_distinct_key"; "non_additive_dimension"] -> lacks d k) -> e_default_date E <> None ->
  m <> "" -> e_with_view E (e_view E) m = Err e -> e = AccessDenied \/ e = QueryError ->
  exists es d' w, collect_errors E fuel d = Ok (es, d') /\ In (w, RCumUnreachable) es.
Proof.
  intros N F Y M L DD ME V EE. unfold is_text in *.
  assert (L1 : lacks d "filters") by (apply L; cbn; auto 12). assert (L2 : lacks d "sql") by (apply L; cbn; auto 12). assert (L3 : lacks d "case") by (apply L; cbn; auto 12).
  assert (L4 : lacks d "canon_date") by (apply L; cbn; auto 12). assert (L5 : lacks d "sql_distinct_key") by (apply L; cbn; auto 12). assert (L6 : lacks d "non_additive_dimension") by (apply L; cbn; auto 12). clear L. unfold lacks in *.
  assert (Q : qualify_filters E d = d) by (unfold qualify_filters, filters, has, on, get; rewrite L1; reflexivity).
  destruct (e_default_date E) as [dd|] eqn:D; [|contradiction].
  assert (CD : canon_date E d = Some (YStr (qualify E dd))) by (unfold canon_date, get; rewrite L4, D; reflexivity).
  assert (SQ : sql E n d = Ok None) by (unfold sql, sql_body, get, ytype, eq_str, get; rewrite L2, L3, Y, andb_false_r; reflexivity).
  assert (ST : exists k, measure_errors E fuel n d = Ok k /\ In RCumUnreachable k).
  { unfold measure_errors, ytype, eq_str, get. cbv zeta. rewrite Y. cbn [String.eqb Ascii.eqb Bool.eqb]. rewrite CD, SQ.
    assert (DT : truthy (YStr (qualify E dd)) = true).
    { cbn [truthy]. apply negb_true_iff, String.eqb_neq. unfold qualify. destruct (contains "." dd) eqn:X; [intros ->; discriminate X|]. intros Z. destruct (e_view E); discriminate Z. }
    rewrite DT. cbn [bind negb andb]. rewrite andb_false_r. cbn [bind].
    unfold cumulative_errors, measure, get. rewrite M. cbn [truthy]. destruct (String.eqb_spec m "") as [X|_]; [contradiction|]. cbn [negb]. rewrite V. cbn [bind].
    unfold distinct_errors, ytype, str_in, get, on, get. rewrite Y, L5. cbn [mem existsb String.eqb Ascii.eqb Bool.eqb orb andb requires_sql_distinct_key]. unfold nad_errors, get. rewrite L6.
    destruct EE as [->| ->]; cbn [bind]; (eexists; split; [reflexivity|]; repeat (rewrite in_app_iff); cbn [In]; auto 12). }
  destruct ST as (k & ST & K). unfold collect_errors, errors, get. rewrite N. cbv zeta. unfold filters_errors, has, get. rewrite L1. cbn [bind]. rewrite Q. unfold canon_errors. rewrite CD. unfold view_default_date. rewrite D, String.eqb_refl. cbn [bind].
  unfold ftype, get. rewrite F. cbn [String.eqb Ascii.eqb Bool.eqb]. rewrite ST. cbn [bind]. unfold nad, get. rewrite L6. cbn [bind]. do 3 eexists. split; [reflexivity|]. apply in_map_iff. exists RCumUnreachable. split; [reflexivity|]. repeat rewrite in_app_iff. auto 30.
Qed.
Print Assumptions C63_cumulative_reported.
Example C63_cumulative_case : exists E e, e_with_view E (e_view E) "twice" = Err e /\ e = QueryError /\ exists d', collect_errors E 1 [("name", YStr "c"); ("field_type", YStr "measure"); ("type", YStr "cumulative"); ("measure", YStr "twice")] = Ok ([(0, RCumUnreachable)], d').
Proof.
  exists {| e_view := "orders"; e_default_date := Some "order"; e_reserved := []; e_grants := []; e_get_field := fun _ => Err AccessDenied; e_by_name := fun _ => Err AccessDenied; e_with_view := fun _ _ => Err QueryError;
     e_drill := fun _ => Ok []; e_readable := fun _ => true; e_case := fun _ => Ok "case"; e_count_sql := Ok "*"; e_translate := fun _ _ _ => Ok "x"; e_tier := fun _ _ => "tier"; e_paren := fun _ => "" |}, QueryError.
  split; [reflexivity|]. split; [reflexivity|]. eexists. vm_compute. reflexivity.
Qed.
