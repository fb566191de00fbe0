(** C76, third part: the filters of a measure.  Their conditions are written into the SQL of the measure, whose
    references are then expanded (Subst_Model), so the values must pass through the expansion unchanged. *)
From Coq Require Import List String Ascii ZArith QArith Bool Lia.
From Verif Require Import PyBase PyList PyStr PyReplace PyRefs Subst_Model Subst_Props Core_Model Clause_Model Clause_Spec Clause_Proofs Filter_Model Cond_Model SqlText_Model SqlText_Props.
Import ListNotations.
Local Open Scope string_scope.
Local Open Scope list_scope.

Lemma cat_app a b : cat (a ++ b) = (cat a ++ cat b)%string.
Proof. induction a as [|x a IH]; [reflexivity|]. cbn [app cat]. rewrite IH, append_assoc. reflexivity. Qed.
Lemma now_app d a b : now d (a ++ b) = (now d a ++ now d b)%string.
Proof. unfold now. rewrite map_app. apply cat_app. Qed.
Lemma now_nil segs : now [] segs = sql_of segs.
Proof. reflexivity. Qed.
Lemma refs_app a b : refs_of (a ++ b) = refs_of a ++ refs_of b.
Proof. unfold refs_of. apply flat_map_app. Qed.

(** Conditions joined by and *)
Fixpoint shown_and (l : list (list tk)) : list tk :=
  match l with [] => [] | [x] => x | x :: r => x ++ letters " and " ++ shown_and r end.

Section Measure.
  Variables (num_str : Q -> string) (time_str : Z -> string).
  Notation criterion_text := (criterion_text num_str time_str).
  (** A criterion is text around its column *)
  Lemma criterion_split k : (exists pre post, forall f, criterion_text f k = Ok (pre ++ f ++ post)%string) \/ (exists e, forall f, criterion_text f k = Err e).
  Proof.
    destruct k as [c v|fold n p| | |v|v| |]; cbn [SqlText_Model.criterion_text].
    - left. exists "", (cmp_text c ++ value_text num_str time_str v)%string. reflexivity.
    - left. destruct fold; [exists "LOWER(", (")" ++ like_text n ++ "LOWER(" ++ quoted p ++ ")")%string|exists "", (like_text n ++ quoted p)%string]; reflexivity.
    - left. exists "", " IS NULL". reflexivity.
    - left. exists "NOT ", " IS NULL". reflexivity.
    - destruct (tuple_text num_str v) as [t|e]; [left; exists "", (" IN " ++ t)%string|right; exists e]; reflexivity.
    - destruct (tuple_text num_str v) as [t|e]; [left; exists "", (" NOT IN " ++ t)%string|right; exists e]; reflexivity.
    - left. exists "", "". intros f. rewrite append_nil_r. reflexivity.
    - left. exists "NOT ", "". intros f. rewrite append_nil_r. reflexivity.
  Qed.
  (** What is written around the column has no dollar *)
  Definition free (a : string * crit) : Prop :=
    good_seg (Ref (fst a)) /\ forall x, criterion_text "" (snd a) = Ok x -> plain x = true.
  Definition seen (d : list (string * string)) (n : string) : string := part d (Ref n).
  Lemma conditions_segs : forall cs xs, Forall free cs -> mapM (fun a => criterion_text ("${" ++ fst a ++ "}")%string (snd a)) cs = Ok xs ->
    exists segs, Forall good_seg segs /\ incl (map fst cs) (refs_of segs) /\
      (forall d, exists ys, mapM (fun a => criterion_text (seen d (fst a)) (snd a)) cs = Ok ys /\ now d segs = join_with " and " ys) /\ sql_of segs = join_with " and " xs.
  Proof.
    intros cs xs F E.
    assert (G : exists segs, Forall good_seg segs /\ incl (map fst cs) (refs_of segs) /\
      (forall d, exists ys, mapM (fun a => criterion_text (seen d (fst a)) (snd a)) cs = Ok ys /\ now d segs = join_with " and " ys)).
    { revert xs E. induction F as [|[n k] cs [GN PL] F IH]; intros xs E.
      { exists []. split; [constructor|]. split; [intros x []|]. intros d. exists []. split; reflexivity. }
      cbn [mapM fst snd] in *. apply bind_ok in E. destruct E as [x [E1 E]]. apply bind_ok in E. destruct E as [xs' [E2 E]].
      destruct (IH xs' E2) as [segs [S1 [S2 S3]]].
      destruct (criterion_split k) as [[pre [post W]]|[e W]]; [|rewrite W in E1; discriminate].
      specialize (PL (pre ++ post)%string (W "")). rewrite plain_app in PL. apply andb_true_iff in PL. destruct PL as [P1 P2].
      exists ([Text pre; Ref n; Text post] ++ match cs with [] => [] | _ => Text " and " :: segs end).
      split; [|split].
      - apply Forall_app. split; [repeat constructor; auto; apply GN|]. destruct cs; [constructor|]. constructor; [reflexivity|exact S1].
      - intros m [<-|I]; rewrite refs_app; apply in_or_app; [left; left; reflexivity|]. right. destruct cs; [destruct I|]. cbn. apply S2. exact I.
      - intros d. destruct (S3 d) as [ys [Y1 Y2]]. exists ((pre ++ seen d n ++ post)%string :: ys). split.
        + rewrite W. cbn [bind]. rewrite Y1. reflexivity.
        + rewrite now_app. change (now d [Text pre; Ref n; Text post]) with (pre ++ seen d n ++ post ++ "")%string. rewrite append_nil_r.
          destruct cs as [|c cs].
          * cbn [mapM] in Y1. apply ok_inj in Y1. subst ys. cbn. rewrite append_nil_r. reflexivity.
          * destruct ys as [|y ys].
            { apply mapM_ok in Y1. inversion Y1. }
            change (now d (Text " and " :: segs)) with (" and " ++ now d segs)%string. rewrite Y2. reflexivity. }
    destruct G as [segs [S1 [S2 S3]]]. exists segs. split; [exact S1|]. split; [exact S2|]. split; [exact S3|].
    destruct (S3 []) as [ys [Y1 Y2]]. rewrite <- now_nil, Y2. f_equal. unfold seen in Y1. cbn [part assoc] in Y1. congruence.
  Qed.

  Lemma rstrip_end (s : string) (c : ascii) : is_space c = false -> rstrip (s ++ String c "") = (s ++ String c "")%string.
  Proof.
    intros N. induction s as [|x s IH]; cbn [append rstrip]; [rewrite N; reflexivity|]. rewrite IH. destruct s; reflexivity.
  Qed.
  Lemma collapse_single (s : string) : forall b : bool, contains "  " (if b then String " " s else s) = false -> collapse_aux b s = s.
  Proof.
    induction s as [|c s IH]; intros b H; [reflexivity|]. cbn [collapse_aux].
    assert (T : contains "  " (String c s) = false).
    { destruct b; [|exact H]. cbn [contains] in H. apply orb_false_iff in H. apply H. }
    destruct (Ascii.eqb_spec c " ") as [->|N].
    - destruct b; [|rewrite (IH true) by exact T; reflexivity]. exfalso. cbn [contains] in H. apply orb_false_iff in H. destruct H as [H _]. discriminate H.
    - rewrite (IH false); [reflexivity|]. cbn [contains] in T. apply orb_false_iff in T. apply T.
  Qed.

  (** The SQL of a measure with filters, once expanded: the conditions are those of the columns' own SQL, with the
      same values, up to runs of spaces. *)
  Variable get_field : string -> string -> res xfield.
  Theorem C76_measure_filter : forall r col numt lit fuel f own cs else_0 text t,
    (forall q, phrase r (num_str q) (numt q) /\ no_quote_first (num_str q) = true) ->
    Forall good_seg own -> Forall free cs -> cs <> [] ->
    measure_case num_str time_str (sql_of own) cs else_0 = Ok text -> xf_sql f = Some text ->
    (forall n u, value_of (fun n => g <- get_field (xf_view f) n ;; raw_sql_query get_field fuel g) (xf_view f) n = Ok (RText u) -> plain u = true) ->
    raw_sql_query get_field (S fuel) f = Ok (RText t) ->
    exists val body xs rest,
      (forall a, In a cs -> value_of (fun n => g <- get_field (xf_view f) n ;; raw_sql_query get_field fuel g) (xf_view f) (fst a) = Ok (RText (val (fst a)))) /\
      mapM (fun a => criterion_text (val (fst a)) (snd a)) cs = Ok xs /\
      body = ("case when " ++ join_with " and " xs ++ " then " ++ rest ++ (if else_0 then " else 0 end" else " end"))%string /\
      t = xf_wrap f (collapse body) /\
      (contains "  " body = false -> t = xf_wrap f body) /\
      (Forall (fun a => fine r time_str col lit (val (fst a), snd a)) cs -> forall o, stands r rest o ->
        reading r body = Some (letters "case when " ++ shown_and (map (fun a => shown time_str col numt lit (val (fst a)) (snd a)) cs)
                               ++ letters " then " ++ o ++ letters (if else_0 then " else 0 end" else " end"))).
  Proof.
    intros r col numt lit fuel f own cs else_0 text t NUM OWN FREE NE M S V H.
    unfold measure_case in M. apply bind_ok in M. destruct M as [xs0 [M1 M2]]. apply ok_inj in M2.
    destruct (conditions_segs cs xs0 FREE M1) as [segs [S1 [S2 [S3 S4]]]].
    set (tail := (if else_0 then " else 0 end" else " end") : string) in *.
    set (all := Text "case when " :: segs ++ Text " then " :: own ++ [Text tail]).
    assert (TX : text = sql_of all).
    { rewrite <- now_nil. unfold all. change (Text "case when " :: ?l) with ([Text "case when "] ++ l). rewrite !now_app.
      change (Text " then " :: own ++ [Text tail]) with ([Text " then "] ++ own ++ [Text tail]). rewrite !now_app. assert (S4' : now [] segs = join_with " and " xs0) by (rewrite now_nil; exact S4). rewrite S4', (now_nil own), <- M2.
      change (now [] [Text ?x]) with (x ++ "")%string. rewrite !append_nil_r. reflexivity. }
    assert (GA : Forall good_seg all).
    { unfold all. constructor; [reflexivity|]. apply Forall_app. split; [exact S1|]. constructor; [reflexivity|]. apply Forall_app. split; [exact OWN|]. repeat constructor. unfold tail. destruct else_0; reflexivity. }
    cbn [raw_sql_query] in H. destruct (xf_number_measure f); [discriminate H|]. rewrite S in H.
    destruct (String.eqb text ""); [discriminate H|]. destruct (contains "{%" text); [discriminate H|]. apply bind_ok in H. destruct H as [u [U E]].
    assert (E' : xf_wrap f (collapse u) = t) by congruence. clear E.
    set (value := fun n => g <- get_field (xf_view f) n ;; raw_sql_query get_field fuel g) in *.
    pose proof (substitute_spec value (xf_view f) all GA (fun n t _ X => V n t X) (refs_of all) [] (fun x X => X)) as SS.
    assert (D0 : forall m t, @assoc string m [] = Some t -> value_of value (xf_view f) m = Ok (RText t) /\ In m (refs_of all)) by (intros m t0 X; discriminate X).
    specialize (SS D0). rewrite TX, refs_sql in U by auto. rewrite now_nil, U in SS.
    destruct SS as [_ [d [EU [A B]]]].
    assert (KN : forall a, In a cs -> value_of value (xf_view f) (fst a) = Ok (RText (seen d (fst a)))).
    { intros a IA. assert (R : In (fst a) (refs_of all)).
      { unfold all. change (Text "case when " :: ?l) with ([Text "case when "] ++ l). rewrite refs_app. apply in_or_app. right. rewrite refs_app. apply in_or_app. left. apply S2. apply in_map. exact IA. }
      unfold seen. cbn [part]. specialize (B (fst a) (or_introl R)). destruct (assoc (fst a) d) as [w|] eqn:W; [|congruence]. apply A. exact W. }
    destruct (S3 d) as [ys [Y1 Y2]].
    set (body := ("case when " ++ join_with " and " ys ++ " then " ++ now d own ++ tail)%string).
    assert (NB : now d all = body).
    { unfold all, body. change (Text "case when " :: ?l) with ([Text "case when "] ++ l). rewrite !now_app.
      change (Text " then " :: own ++ [Text tail]) with ([Text " then "] ++ own ++ [Text tail]). rewrite !now_app, Y2.
      unfold now. cbn [map cat part]. rewrite !append_nil_r. reflexivity. }
    assert (SB : strip body = body).
    { assert (X : exists b, body = (String "c" b ++ String "d" "")%string).
      { unfold body, tail. exists ("ase when " ++ join_with " and " ys ++ " then " ++ now d own ++ (if else_0 then " else 0 en" else " en"))%string.
        destruct else_0; cbn [append]; rewrite !append_assoc; cbn [append]; rewrite !append_assoc; reflexivity. }
      destruct X as [b ->]. unfold strip. rewrite rstrip_end by reflexivity. reflexivity. }
    rewrite NB, SB in EU. subst u.
    exists (seen d), body, ys, (now d own). split; [exact KN|]. split; [exact Y1|]. split; [reflexivity|]. split; [symmetry; exact E'|]. split.
    { intros C. rewrite <- E'. unfold collapse. rewrite (collapse_single body false C). reflexivity. }
    intros FN o SO. apply stands_reading. unfold body.
    apply phrase_then; [reflexivity|]. apply stands_then; [|apply phrase_then; [reflexivity|]|reflexivity].
    - clear -NE FN Y1 NUM. revert ys Y1 NE. induction FN as [|a cs [F1 [F2 F3]] FN IH]; intros ys Y1 NE; [congruence|].
      cbn [mapM] in Y1. apply bind_ok in Y1. destruct Y1 as [y [E1 E]]. apply bind_ok in E. destruct E as [ys' [E2 E]]. apply ok_inj in E. subst ys.
      assert (SY : stands r y (shown time_str col numt lit (seen d (fst a)) (snd a))).
      { eapply comparison_stands; eauto. }
      destruct cs as [|a2 cs].
      + cbn [mapM] in E2. apply ok_inj in E2. subst ys'. cbn [map shown_and join_with]. exact SY.
      + specialize (IH ys' E2 ltac:(discriminate)). destruct ys' as [|y2 ys']; [apply mapM_ok in E2; inversion E2|].
        change (join_with " and " (y :: y2 :: ys')) with (y ++ (" and " ++ join_with " and " (y2 :: ys')))%string.
        cbn [map shown_and]. apply stands_then; [exact SY| |reflexivity]. apply phrase_then; [reflexivity|exact IH].
    - apply stands_then_phrase; [exact SO|unfold tail; destruct else_0; reflexivity|unfold tail; destruct else_0; reflexivity].
  Qed.
End Measure.
Print Assumptions C76_measure_filter.

(** ** Values that do not pass *)
Definition ms_fields (view n : string) : res xfield :=
  if String.eqb n "status" then Ok (plain_field "orders" "status" "${TABLE}.status")
  else if String.eqb n "region" then Ok (plain_field "orders" "region" "coalesce(${TABLE}.region,'none')")
  else if String.eqb n "amount" then Ok (plain_field "orders" "amount" "${TABLE}.amount")
  else Err QueryError.
Definition ms_measure (v : string) : res (string * raw_result) :=
  text <- measure_case (fun _ => "1") (fun _ => "") "${amount}" [("status", KCmp CmpEq (CStr v))] false ;;
  t <- raw_sql_query ms_fields 5 (plain_field "orders" "total" text) ;; Ok (text, t).
(** A value that looks like a reference is expanded as one, inside its quotes: the SQL of that field then reads as SQL. *)
Theorem C76_reference_refuted : exists text t, ms_measure "${region}" = Ok (text, RText t) /\
  (forall r, reading r t = Some (letters "case when orders.status=" ++ [TS "coalesce(orders.region,"] ++ letters "none" ++ [TS ")"] ++ letters " then orders.amount end")).
Proof. eexists. eexists. split; [vm_compute; reflexivity|]. intros [[] []]; reflexivity. Qed.
Print Assumptions C76_reference_refuted.
(** A value with two spaces in a row loses one, so another value is asked for. *)
Theorem C76_value_spaces_refuted : exists text t, ms_measure "A  1" = Ok (text, RText t) /\
  (forall r, reading r text = Some (letters "case when ${status}=" ++ [TS "A  1"] ++ letters " then ${amount} end")) /\
  (forall r, reading r t = Some (letters "case when orders.status=" ++ [TS "A 1"] ++ letters " then orders.amount end")).
Proof. eexists. eexists. split; [vm_compute; reflexivity|]. split; intros [[] []]; reflexivity. Qed.
Print Assumptions C76_value_spaces_refuted.
(** A value with an opening brace and a percent sign makes the measure have no SQL at all. *)
Theorem C76_template_refuted : forall get_field fuel f own cs else_0 text num_str time_str,
  measure_case num_str time_str own cs else_0 = Ok text -> xf_sql f = Some text -> xf_number_measure f = false ->
  contains "{%" text = true -> raw_sql_query get_field (S fuel) f = Ok RNone.
Proof.
  intros get_field fuel f own cs else_0 text num_str time_str M S N C. cbn [raw_sql_query]. rewrite N, S, C.
  destruct (String.eqb_spec text "") as [->|_]; [discriminate C|reflexivity].
Qed.
Print Assumptions C76_template_refuted.
Example C76_template_case : exists text, ms_measure "{%a" = Ok (text, RNone).
Proof. eexists. vm_compute. reflexivity. Qed.
Example C76_measure_case : exists text t, ms_measure "it's" = Ok (text, RText t) /\
  Forall (free (fun _ => "1") (fun _ => "")) [("status", KCmp CmpEq (CStr "it's"))] /\
  (forall n u, value_of (fun n => g <- ms_fields "orders" n ;; raw_sql_query ms_fields 4 g) "orders" n = Ok (RText u) -> plain u = true) /\
  reading (rules_of "POSTGRES") t = Some (letters "case when orders.status=" ++ [TS "it's"] ++ letters " then orders.amount end").
Proof.
  eexists. eexists. split; [vm_compute; reflexivity|]. split; [|split].
  - repeat constructor. intros x E. cbn in E. inversion E. reflexivity.
  - intros n u. unfold value_of, ms_fields. destruct (String.eqb n "TABLE"); [intros E; inversion E; reflexivity|].
    destruct (String.eqb n "status"); [intros E; vm_compute in E; inversion E; reflexivity|].
    destruct (String.eqb n "region"); [intros E; vm_compute in E; inversion E; reflexivity|].
    destruct (String.eqb n "amount"); [intros E; vm_compute in E; inversion E; reflexivity|discriminate].
  - reflexivity.
Qed.
