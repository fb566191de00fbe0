(** C64: validating a view reports exactly the rules its definition breaks. *)
From Coq Require Import List String ZArith Bool.
From Verif Require Import PyBase PyStr PyRefs PyReplace PyList Names_Model Names_Props FieldCheck_Model FieldCheck_Spec FieldCheck_Proofs ViewCheck_Model ViewCheck_Spec ViewCheck_Proofs ViewCheck_Raises.
Import ListNotations.
Local Open Scope string_scope.
Local Open Scope list_scope.

Lemma has_model_iff E d : has_model E d = true <-> modelled E d.
Proof.
  unfold has_model, modelled, value, lacks, OneOf, get. destruct (assoc "model_name" d) as [v|].
  - assert (X : forall A, (exists v0, Some v = Some v0 /\ exists s, v0 = YStr s /\ In s (ve_models E)) \/ (Some v = None /\ A) <-> exists s, v = YStr s /\ In s (ve_models E)).
    { intros A. split; [intros [(v0 & X & H)|[X _]]; [injection X as <-; exact H|discriminate X]|]. intros H. left. eauto. }
    rewrite X. destruct v; try (split; [discriminate|]; intros (s' & Y & _); discriminate Y). rewrite mem_In. split; [eauto|]. intros (s' & Y & I). injection Y as <-. exact I.
  - destruct (assoc "model" d) as [w|].
    + split.
      * intros H. right. split; [reflexivity|]. exists w. split; [reflexivity|]. intros ->. discriminate H.
      * intros [(v0 & X & _)|(_ & v0 & X & H)]; [discriminate X|]. injection X as <-. destruct w; try reflexivity. contradiction.
    + split; [discriminate|]. intros [(v0 & X & _)|(_ & v0 & X & _)]; discriminate X.
Qed.
Lemma not_modelled E d : has_model E d = false <-> ~ modelled E d.
Proof. rewrite <- has_model_iff. destruct (has_model E d); split; congruence. Qed.

Section Props.
  Variable E : venv.
  Variable d : ydict.

  (** *** The two errors that end the check *)
  Theorem C64_unreadable_fields : ve_fields E = Err QueryError -> collect_errors E d = Ok [VFields].
  Proof. intros F. unfold collect_errors. rewrite F. reflexivity. Qed.
  Theorem C64_no_model fs : ve_fields E = Ok fs -> ~ modelled E d -> collect_errors E d = Ok [VModel].
  Proof. intros F M. apply not_modelled in M. unfold collect_errors. rewrite F, M. reflexivity. Qed.

  Variable n : string.
  Variable fs : list vfield.
  Hypothesis F : ve_fields E = Ok fs.
  Hypothesis M : modelled E d.
  Hypothesis N : is_text d "name" n.

  Lemma parts_of es : collect_errors E d = Ok es -> exists t dt st al ac ev ids fe,
    table_errors E d = Ok t /\ date_errors E n d = Ok dt /\ sets_errors E n d = Ok st /\ always_errors E n d = Ok al /\ access_errors E d = Ok ac /\ event_errors E n d = Ok ev /\
    ids_errors E n d = Ok ids /\ fields_errors fs = Ok fe /\
    forall r, In r es <-> In r (plain_part n d) \/ In r (t ++ derived_errors d) \/ In r dt \/ In r st \/ In r al \/ In r (ac ++ view_grants_errors E d) \/ In r ev \/ In r ids
                          \/ In r (fe ++ say (negb (existsb vf_primary fs)) VNoKey).
  Proof.
    unfold collect_errors. rewrite F. apply has_model_iff in M. rewrite M. cbn [negb]. unfold get. unfold is_text in N. rewrite N. intros H.
    apply bind_ok in H. destruct H as [t [T H]]. apply bind_ok in H. destruct H as [dt [DT H]]. apply bind_ok in H. destruct H as [st [ST H]]. apply bind_ok in H. destruct H as [al [AL H]].
    apply bind_ok in H. destruct H as [ac [AC H]]. apply bind_ok in H. destruct H as [ev [EV H]]. apply bind_ok in H. destruct H as [ids [IDS H]]. apply bind_ok in H. destruct H as [fe [FE H]].
    apply ok_inj in H. subst es. exists t, dt, st, al, ac, ev, ids, fe. repeat (split; [assumption|]). intros r. unfold plain_part. rewrite !in_app_iff. tauto.
  Qed.
  (** The errors about anything but identifiers *)
  Definition other_breaks (r : vrule) : Prop :=
    plain_breaks n d r \/ table_breaks d r \/ date_breaks E n d r \/ sets_break E n d r \/ always_breaks E n d r \/ access_breaks E d r \/ event_breaks E n d r \/ fields_break fs r.
  Lemma split_ids es : collect_errors E d = Ok es -> exists ids, ids_errors E n d = Ok ids /\ forall r, In r es <-> other_breaks r \/ In r ids.
  Proof.
    intros H. destruct (parts_of es H) as (t & dt & st & al & ac & ev & ids & fe & T & DT & ST & AL & AC & EV & IDS & FE & R). exists ids. split; [exact IDS|]. intros r. rewrite R. clear R. unfold other_breaks.
    rewrite plain_iff, (table_iff E d t r T), (date_iff E n d dt r DT), (sets_iff E n d st r ST), (always_iff E n d al r AL), (access_iff E d ac r AC), (event_iff E n d ev r EV), (fields_iff fs fe r FE). tauto.
  Qed.
  Lemma query_only_ids : ~ other_breaks VIdQuery.
  Proof. unfold other_breaks. cbn. tauto. Qed.

  (** *** Exactly the rules that are broken *)
  Theorem C64_exact es : collect_errors E d = Ok es -> (forall i, element d "identifiers" (YDict i) -> ~ id_fails E n i QueryError) ->
    forall r, In r es <-> view_breaks E n fs d r.
  Proof.
    intros H Q r. destruct (split_ids es H) as (ids & IDS & R). rewrite R. rewrite (ids_iff E n d ids r IDS); [unfold view_breaks, other_breaks; tauto|].
    unfold ids_errors, identifiers, get in IDS. unfold element in Q. destruct (assoc "identifiers" d) as [v|]; [|cbn [ids_loop] in IDS; apply ok_inj in IDS; subst ids; intros []].
    destruct v as [| | | | |l|]; try (apply ok_inj in IDS; subst ids; intros [X|[]]; discriminate X). destruct (first_some id_fault l) as [f|] eqn:FF; [apply ok_inj in IDS; subst ids; intros [X|[]]; discriminate X|].
    apply first_some_none in FF. assert (W : Forall well_shaped l) by (revert FF; apply Forall_impl; intros a; apply fault_none). apply (loop_clean E n l l) with (2 := W) (3 := IDS). intros j I. apply Q. exists l. auto.
  Qed.
  (** A view without errors breaks no rule, and the other way round *)
  Corollary C64_clean es : collect_errors E d = Ok es -> (es = [] <-> (forall r, ~ view_breaks E n fs d r) /\ forall i, element d "identifiers" (YDict i) -> well_shaped (YDict i) -> ~ id_fails E n i QueryError).
  Proof.
    intros H. split.
    - intros ->. assert (Q : forall l i l', assoc "identifiers" d = Some (YList (l ++ YDict i :: l')) -> Forall well_shaped (l ++ YDict i :: l') -> (forall j, In (YDict j) l -> ~ id_fails E n j QueryError) -> ~ id_fails E n i QueryError).
      { intros l i l' A W B C. destruct (split_ids [] H) as (ids & IDS & R). unfold ids_errors, identifiers, get in IDS. rewrite A in IDS.
        assert (FN : first_some id_fault (l ++ YDict i :: l') = None) by (apply first_some_none; revert W; apply Forall_impl; intros a; apply fault_none). rewrite FN in IDS.
        pose proof W as W'. apply Forall_app in W'. destruct W' as [W1 W2]. inversion W2 as [|? ? W3 _]. subst.
        destruct (loop_query E n (l ++ YDict i :: l') l i l' [] ids) as (o & _ & -> & _); auto. { intros j I. split; [|auto]. rewrite Forall_forall in W1. auto. }
        apply (proj2 (R VIdQuery)). right. apply in_app_iff. right. now left. }
      assert (G : forall l, assoc "identifiers" d = Some (YList l) -> Forall well_shaped l -> forall l1 l2, l = l1 ++ l2 -> forall j, In (YDict j) l1 -> ~ id_fails E n j QueryError).
      { intros l A W l1. induction l1 as [|v l1 IH] using rev_ind; intros l2 X j I; [destruct I|]. apply in_app_iff in I. rewrite <- app_assoc in X. cbn [app] in X. destruct I as [I|[->|[]]]; [exact (IH _ X j I)|].
        subst l. apply (Q l1 j l2 A W). exact (IH (YDict j :: l2) eq_refl). }
      assert (S : forall i, element d "identifiers" (YDict i) -> well_shaped (YDict i) -> ~ id_fails E n i QueryError).
      { intros i (l & A & I) _. destruct (split_ids [] H) as (ids & IDS & R). assert (IN : ids = []) by (destruct ids as [|x ids]; [reflexivity|]; exfalso; apply (proj2 (R x)); right; now left). subst ids.
        unfold ids_errors, identifiers, get in IDS. rewrite A in IDS. destruct (first_some id_fault l) as [f|] eqn:FF; [discriminate IDS|].
        apply first_some_none in FF. assert (W : Forall well_shaped l) by (revert FF; apply Forall_impl; intros a; apply fault_none). apply (G l A W l []); [now rewrite app_nil_r|exact I]. }
      split; [|exact S]. intros r B. assert (Q' : forall i, element d "identifiers" (YDict i) -> ~ id_fails E n i QueryError).
      { intros i I. apply S; [exact I|]. destruct (split_ids [] H) as (ids & IDS & R). assert (IN : ids = []) by (destruct ids as [|x ids]; [reflexivity|]; exfalso; apply (proj2 (R x)); right; now left). subst ids.
        destruct I as (l & A & I). unfold ids_errors, identifiers, get in IDS. rewrite A in IDS. destruct (first_some id_fault l) as [f|] eqn:FF; [discriminate IDS|]. apply first_some_none in FF. rewrite Forall_forall in FF. apply fault_none. auto. }
      apply (C64_exact [] H Q' r). exact B.
    - intros [B S]. destruct (split_ids es H) as (ids & IDS & R).
      assert (Z : forall r, ~ In r ids).
      { intros r I. assert (C : ~ In VIdQuery ids \/ In VIdQuery ids) by (clear; induction ids as [|x l IH]; [left; intros []|]; destruct IH as [IH|IH]; [|right; now right]; destruct x; try (left; intros [X|X]; [discriminate X|contradiction]); right; now left).
        destruct C as [C|C].
        - apply (B r). unfold view_breaks. rewrite (ids_iff E n d ids r IDS C) in I. tauto.
        - revert C. unfold ids_errors, identifiers, get in IDS. destruct (assoc "identifiers" d) as [v|] eqn:A; [|cbn [ids_loop] in IDS; apply ok_inj in IDS; subst ids; intros []].
          destruct v as [| | | | |l|]; try (apply ok_inj in IDS; subst ids; intros [X|[]]; discriminate X). destruct (first_some id_fault l) as [f|] eqn:FF; [apply ok_inj in IDS; subst ids; intros [X|[]]; discriminate X|].
          apply first_some_none in FF. assert (W : Forall well_shaped l) by (revert FF; apply Forall_impl; intros a; apply fault_none). apply (loop_clean E n l l) with (2 := W) (3 := IDS).
          intros j J. apply S; [exists l; auto|]. rewrite Forall_forall in W. auto. }
      destruct es as [|x es]; [reflexivity|]. exfalso. destruct (proj1 (R x) (or_introl eq_refl)) as [K|K]; [|exact (Z x K)]. apply (B x). unfold view_breaks, other_breaks in *. tauto.
  Qed.

  (** *** When validation raises *)
  Theorem C64_raises : (exists e, collect_errors E d = Err e) <-> view_raises E n fs d.
  Proof.
    change (exists e, collect_errors E d = Err e) with (fails (collect_errors E d)). unfold view_raises.
    rewrite <- table_fails, <- date_fails, <- (sets_fails E n), <- always_fails, <- access_fails, <- event_fails, <- ids_fails, <- fields_fails.
    unfold collect_errors. rewrite F. pose proof M as M'. apply has_model_iff in M'. rewrite M'. cbn [negb]. unfold get. unfold is_text in N. rewrite N.
    destruct (table_errors E d) as [t|e]; cbn [bind]; rewrite ?fails_ok, ?fails_err; [|tauto].
    destruct (date_errors E n d) as [dt|e]; cbn [bind]; rewrite ?fails_ok, ?fails_err; [|tauto].
    destruct (sets_errors E n d) as [st|e]; cbn [bind]; rewrite ?fails_ok, ?fails_err; [|tauto].
    destruct (always_errors E n d) as [al|e]; cbn [bind]; rewrite ?fails_ok, ?fails_err; [|tauto].
    destruct (access_errors E d) as [ac|e]; cbn [bind]; rewrite ?fails_ok, ?fails_err; [|tauto].
    destruct (event_errors E n d) as [ev|e]; cbn [bind]; rewrite ?fails_ok, ?fails_err; [|tauto].
    destruct (ids_errors E n d) as [ids|e]; cbn [bind]; rewrite ?fails_ok, ?fails_err; [|tauto].
    destruct (fields_errors fs) as [fe|e]; cbn [bind]; rewrite ?fails_ok, ?fails_err; tauto.
  Qed.

  (** *** Where the claim fails *)
  (** An event dimension that names its view raises when the view has no default date *)
  Theorem C64_event_dimension_raises_refuted s : is_text d "event_dimension" s -> contains "." s = true -> lacks d "default_date" -> exists e, collect_errors E d = Err e.
  Proof. intros A B C. apply C64_raises. unfold view_raises. do 5 right. left. exists s. split; [exact A|]. right. left. auto. Qed.
  (** ... and is not looked up when it has one: only the default date is *)
  Theorem C64_event_dimension_unchecked_refuted s t es : is_text d "event_dimension" s -> contains "." s = true -> is_text d "default_date" t -> ve_get_field E t = Ok tt ->
    collect_errors E d = Ok es -> ~ In VEvent es.
  Proof.
    intros A B C G H I. destruct (split_ids es H) as (ids & IDS & R). apply R in I. unfold other_breaks in I. cbn [plain_breaks table_breaks date_breaks sets_break always_breaks access_breaks fields_break event_breaks] in I.
    destruct I as [I|I].
    - assert (X : exists s0, is_text d "event_dimension" s0 /\ (contains "." s0 = false /\ unknown E (n ++ "." ++ s0)%string \/ contains "." s0 = true /\ (exists t, is_text d "default_date" t /\ t <> "" /\ unknown E t)
          \/ contains "." s0 = true /\ value d "default_date" (fun v => ~ Str v /\ ve_str E v <> "" /\ unknown E (ve_str E v)))) by tauto.
      unfold is_text, value, unknown in *. destruct X as (s0 & X & [[Y _]|[(_ & t' & Y & _ & Z)|(_ & v & Y & Z & _)]]).
      + assert (s0 = s) by congruence. subst s0. congruence.
      + assert (t' = t) by congruence. subst t'. congruence.
      + assert (v = YStr t) by congruence. subst v. apply Z. now exists t.
    - revert I. unfold ids_errors in IDS. destruct (identifiers d) as [f|l]; [apply ok_inj in IDS; subst ids; intros [X|[]]; discriminate X|]. clear -IDS.
      enough (G : forall all l used ids, ids_loop E n all used l = Ok ids -> ~ In VEvent ids) by exact (G l l [] ids IDS). clear. intros all l. induction l as [|v l IH]; intros used ids H; cbn [ids_loop] in H.
      + apply ok_inj in H. subst ids. intros [].
      + destruct (id_errors E n (id_dict v)) as [es|e]; [|destruct e; try discriminate H; apply ok_inj in H; subst ids; intros [X|[]]; discriminate X].
        destruct (hashable (id_name v)); [|discriminate H]. apply bind_ok in H. destruct H as [ps [P H]]. apply bind_ok in H. destruct H as [rest [L H]]. apply ok_inj in H. subst ids.
        rewrite !in_app_iff, in_map_iff, in_say. intros [(x & X & _)|[[_ X]|[X|X]]]; try discriminate X; [|exact (IH _ _ L X)].
        unfold parts_errors in P. destruct (get "identifiers" (id_dict v)) as [[| | | | |parts|]|]; try (apply ok_inj in P; subst ps; destruct X). rewrite (concatM_in _ _ _ _ P) in X. destruct X as (p & ys & _ & Y & X).
        destruct (forallb (fun v => hashable (id_name v)) all && hashable (id_name p)); [|discriminate Y]. apply ok_inj in Y. subst ys. apply in_say in X. destruct X as [_ X]. discriminate X.
  Qed.
  (** Two tables, the first of which cannot be resolved, raise *)
  Theorem C64_two_tables_raise_refuted v : assoc "sql_table_name" d = Some v -> ~ lacks d "derived_table" -> ve_table E v = Err QueryError -> exists e, collect_errors E d = Err e.
  Proof. intros A B C. apply C64_raises. left. split; [left; split; [unfold lacks; congruence|exact B]|]. exists v, QueryError. split; [exact A|]. split; [exact C|discriminate]. Qed.
  (** A measure marked as primary key hides that the view has no primary key *)
  Theorem C64_measure_key_refuted f es : In f fs -> vf_measure f = true -> vf_primary f = true -> (forall g, ~ key_field fs g) -> collect_errors E d = Ok es -> (forall i, element d "identifiers" (YDict i) -> ~ id_fails E n i QueryError) -> ~ In VNoKey es.
  Proof.
    intros I _ P _ H Q B. apply (C64_exact es H Q) in B. unfold view_breaks in B. cbn in B. assert (X : forall f, In f fs -> vf_primary f = false) by tauto. rewrite (X f I) in P. discriminate P.
  Qed.
  (** An access filter whose field is ambiguous raises *)
  Theorem C64_access_filter_raises_refuted f s : element d "access_filters" (YDict f) -> is_text f "field" s -> ve_get_field E s = Err QueryError -> exists e, collect_errors E d = Err e.
  Proof. intros A B C. apply C64_raises. unfold view_raises. do 4 right. left. exists f. split; [exact A|]. right. exists s, QueryError. split; [exact B|]. split; [exact C|discriminate]. Qed.
  (** A set whose name is not a text raises *)
  Theorem C64_set_name_raises_refuted s v : element d "sets" (YDict s) -> assoc "name" s = Some v -> ~ Str v -> ~ lacks s "fields" -> exists e, collect_errors E d = Err e.
  Proof. intros A B C D. apply C64_raises. unfold view_raises. do 2 right. left. exists s. split; [exact A|]. split; [split; [unfold lacks; congruence|exact D]|]. exists v. auto. Qed.
  (** An identifier with an ambiguous reference: it is reported alone, and the identifiers after it are not checked *)
  Theorem C64_later_identifiers_refuted l i l' es : assoc "identifiers" d = Some (YList (l ++ YDict i :: l')) -> Forall well_shaped (l ++ YDict i :: l') ->
    (forall j, In (YDict j) l -> ~ id_fails E n j QueryError) -> id_fails E n i QueryError -> collect_errors E d = Ok es ->
    In VIdQuery es /\ forall m r, In (VId m r) es <-> exists j, In (YDict j) l /\ assoc "name" j = Some m /\ id_breaks E n j r.
  Proof.
    intros A W B C H. destruct (split_ids es H) as (ids & IDS & R). unfold ids_errors, identifiers, get in IDS. rewrite A in IDS.
    assert (FN : first_some id_fault (l ++ YDict i :: l') = None) by (apply first_some_none; revert W; apply Forall_impl; intros a; apply fault_none). rewrite FN in IDS.
    pose proof W as W'. apply Forall_app in W'. destruct W' as [W1 W2]. inversion W2 as [|? ? W3 _]. subst.
    destruct (loop_query E n (l ++ YDict i :: l') l i l' [] ids) as (o & L & -> & NO); auto. { intros j I. split; [|auto]. rewrite Forall_forall in W1. auto. }
    split; [apply R; right; apply in_app_iff; right; now left|]. intros m r. rewrite R, in_app_iff. rewrite (loop_iff E n _ l W W1 [] o (VId m r) L NO).
    assert (X : ~ other_breaks (VId m r)) by (unfold other_breaks; cbn; tauto). assert (Y : ~ In (VId m r) [VIdQuery]) by (intros [Y|[]]; discriminate Y). tauto.
  Qed.
End Props.
(** A name that is not a text raises *)
Theorem C64_view_name_raises_refuted E d fs v : ve_fields E = Ok fs -> modelled E d -> assoc "name" d = Some v -> ~ Str v -> collect_errors E d = Err TypeError.
Proof. intros F M A B. apply has_model_iff in M. unfold collect_errors, get. rewrite F, M, A. cbn [negb]. destruct v; try reflexivity. exfalso. apply B. eexists. reflexivity. Qed.

Print Assumptions C64_unreadable_fields.
Print Assumptions C64_no_model.
Print Assumptions C64_exact.
Print Assumptions C64_clean.
Print Assumptions C64_raises.
Print Assumptions C64_event_dimension_raises_refuted.
Print Assumptions C64_event_dimension_unchecked_refuted.
Print Assumptions C64_two_tables_raise_refuted.
Print Assumptions C64_measure_key_refuted.
Print Assumptions C64_access_filter_raises_refuted.
Print Assumptions C64_set_name_raises_refuted.
Print Assumptions C64_later_identifiers_refuted.
Print Assumptions C64_view_name_raises_refuted.

(** *** Cases *)
Definition asks (known ambiguous : list string) (q : string) : res unit := if mem q known then Ok tt else if mem q ambiguous then Err QueryError else Err AccessDenied.
Definition shop : venv := {|
  ve_fields := Ok [VFld "order_id" true false (Ok []); VFld "total" false true (Ok [])];
  ve_models := ["core"];
  ve_views := asks ["orders"; "customers"] [];
  ve_get_field := asks ["orders.order_id"; "orders.total"; "orders.created"; "customers.customer_id"] ["customer_id"; "orders.twice"];
  ve_by_name := fun q => if mem q ["orders.created"] then Ok (FInfo "orders" "dimension_group" "time" None (Ok None)) else Err AccessDenied;
  ve_joinable := fun _ => Ok ["customers"];
  ve_grants := ["finance"];
  ve_set_names := fun _ _ => Ok ["orders.order_id"; "orders.nothing"];
  ve_readable := fun _ => true;
  ve_table := fun _ => Ok tt;
  ve_str := fun _ => "1" |}.
Definition fine : ydict := [("type", YStr "view"); ("name", YStr "orders"); ("model_name", YStr "core"); ("sql_table_name", YStr "a.orders"); ("default_date", YStr "created");
  ("sets", YList []); ("identifiers", YList [YDict [("name", YStr "order_id"); ("type", YStr "primary"); ("sql", YStr "${order_id}")];
     YDict [("name", YStr "customers"); ("type", YStr "join"); ("relationship", YStr "many_to_one"); ("sql_on", YStr "1 = 1"); ("reference", YStr "customers")]])].
Example C64_fine_case : collect_errors shop fine = Ok [] /\ modelled shop fine /\ is_text fine "name" "orders".
Proof. split; [vm_compute; reflexivity|]. split; [left; exists (YStr "core"); split; [reflexivity|]; exists "core"; split; [reflexivity|now left]|reflexivity]. Qed.
Definition faulty : ydict := [("name", YStr "or ders"); ("model_name", YStr "core"); ("default_date", YStr "orders.shipped"); ("sets", YList [YDict [("name", YStr "all"); ("fields", YList [])]; YNull]);
  ("access_filters", YList [YDict [("field", YStr "nothing")]]); ("required_access_grants", YList [YStr "sales"]);
  ("identifiers", YList [YDict [("name", YStr "a"); ("type", YStr "primary"); ("sql", YStr "${orders.nothing}")]; YDict [("name", YStr "a"); ("type", YStr "other")]]); ("colour", YNull)].
Example C64_faulty_case : collect_errors shop faulty = Ok [VName; VNoTable; VDateMissing; VSet "all" (SField "orders.nothing"); VSetItem YNull; VAccessField "nothing"; VAccessNoAttr; VGrant "sales";
  VId (YStr "a") (ISqlRef "orders.nothing"); VId (YStr "a") ITypeOption; VIdTwice (YStr "a"); VProperty "colour"].
Proof. vm_compute. reflexivity. Qed.
(** The conditions of the refutations *)
Example C64_event_case : collect_errors shop [("name", YStr "orders"); ("model_name", YStr "core"); ("sql_table_name", YStr "a.orders"); ("event_dimension", YStr "orders.order_id")] = Err KeyError.
Proof. vm_compute. reflexivity. Qed.
Example C64_event_unchecked_case : collect_errors shop [("name", YStr "orders"); ("model_name", YStr "core"); ("sql_table_name", YStr "a.orders"); ("default_date", YStr "orders.created"); ("event_dimension", YStr "orders.nothing")] = Ok [].
Proof. vm_compute. reflexivity. Qed.
Example C64_access_filter_case : collect_errors shop [("name", YStr "orders"); ("model_name", YStr "core"); ("sql_table_name", YStr "a.orders"); ("access_filters", YList [YDict [("field", YStr "customer_id"); ("user_attribute", YStr "c")]])] = Err QueryError.
Proof. vm_compute. reflexivity. Qed.
Example C64_later_case : collect_errors shop [("name", YStr "orders"); ("model_name", YStr "core"); ("sql_table_name", YStr "a.orders");
    ("identifiers", YList [YDict [("name", YStr "twice"); ("type", YStr "foreign")]; YDict [("name", YStr "b"); ("type", YStr "other")]])] = Ok [VIdQuery].
Proof. vm_compute. reflexivity. Qed.
Example C64_later_fails : id_fails shop "orders" [("name", YStr "twice"); ("type", YStr "foreign")] QueryError.
Proof. exists "twice", "foreign". split; [reflexivity|]. split; [reflexivity|]. split; [discriminate|]. right. left. split; [auto|]. split; [reflexivity|]. split; reflexivity. Qed.
Example C64_composite_case : collect_errors shop [("name", YStr "orders"); ("model_name", YStr "core"); ("sql_table_name", YStr "a.orders");
    ("identifiers", YList [YDict [("name", YStr "key"); ("type", YStr "primary"); ("identifiers", YList [YDict [("name", YStr "order_id")]; YDict [("name", YStr "gone")]])]; YDict [("name", YStr "order_id"); ("type", YStr "foreign")]])]
  = Ok [VIdPart (YStr "key") (YStr "gone")].
Proof. vm_compute. reflexivity. Qed.
Example C64_measure_key_case : collect_errors (VEnv (Ok [VFld "total" true true (Ok [])]) ["core"] (fun _ => Ok tt) (fun _ => Ok tt) (fun _ => Err AccessDenied) (fun _ => Ok []) [] (fun _ _ => Ok []) (fun _ => true) (fun _ => Ok tt) (fun _ => ""))
  [("name", YStr "orders"); ("model_name", YStr "core"); ("sql_table_name", YStr "a.orders")] = Ok [].
Proof. vm_compute. reflexivity. Qed.
Example C64_two_tables_case : collect_errors (VEnv (Ok []) ["core"] (fun _ => Ok tt) (fun _ => Ok tt) (fun _ => Err AccessDenied) (fun _ => Ok []) [] (fun _ _ => Ok []) (fun _ => true) (fun _ => Err QueryError) (fun _ => ""))
  [("name", YStr "orders"); ("model_name", YStr "core"); ("sql_table_name", YStr "-- if prod -- a"); ("derived_table", YDict [("sql", YStr "select 1")])] = Err QueryError.
Proof. vm_compute. reflexivity. Qed.
