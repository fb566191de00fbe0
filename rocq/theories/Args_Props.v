(** C81: what a query does to the objects it is asked with, and what asking again with them gives *)
From Coq Require Import List String Bool Arith Lia.
From Verif Require Import PyBase PyStr Mapping_Model Mapping_Proofs Mapping_Props Args_Model Args_Proofs.
Import ListNotations.
Local Open Scope string_scope.
Local Open Scope list_scope.

Section C81.
  Variable R : Type.
  Variable group_by : R -> bool.
  Variable get_field : string -> res mfld.
  Variable get_mapped : string -> option mapping.
  Variable special : string -> bool.
  Variable n_measures : string -> res nat.
  Variable enum : list string -> list string.
  Variable idents : string -> list string.
  Variable always : list string -> list (cdict R).
  Notation kgb := (kept_group_by group_by).
  Notation cfields := (clause_fields kgb idents).
  Notation rs := (resolve kgb get_field get_mapped special n_measures enum idents []).
  Notation ask := (ask group_by get_field get_mapped special n_measures enum idents always).
  (** The (n+1)-th answer, every time with the objects as the time before left them *)
  Fixpoint nth_ask (n : nat) (a : args R) : res (args R * query (kept R)) := match n with 0 => ask a | S n => p <- ask a ;; nth_ask n (fst p) end.
  Definition conds_of (c : aclause R) : list (cdict R) := match c with AList l => l | _ => [] end.
  Definition unmapped (l : list string) : Prop := forall x, In x l -> get_mapped x = None.
  Definition aw (a : args R) : list (cdict R) := always (a_metrics a ++ a_dims a).
  Definition read (d : cdict R) : robj (kept R) := as_robj (process d).

  (** What is read of a condition: its field, its conditions, and the rest without query_class; of one that is wrapped, what it wraps, as it is *)
  Inductive shown : cdict R -> robj (kept R) -> Prop :=
  | shown_plain f l u s r : shown (CDict f None l u s r) (RDict f None (r, u, l))
  | shown_group f cs os l u s r : Forall2 shown cs os -> shown (CDict f (Some cs) l u s r) (RDict f (Some os) (r, u, l)).
  Inductive reading : cdict R -> robj (kept R) -> Prop :=
  | reading_wrapped f cs x u s r o : shown x o -> reading (CDict f cs (Some x) u s r) o
  | reading_plain f u s r : reading (CDict f None None u s r) (RDict f None (r, u, None))
  | reading_group f cs os u s r : Forall2 reading cs os -> reading (CDict f (Some cs) None u s r) (RDict f (Some os) (r, u, None)).
  Lemma shown_as : forall d, shown d (as_robj d).
  Proof.
    fix IH 1. intros [f [cs|] l u s r]; cbn [as_robj]; constructor. induction cs as [|c cs IHc]; cbn [map]; constructor; [apply IH | exact IHc].
  Qed.
  Theorem C81_read : forall d, reading d (read d).
  Proof.
    unfold read. fix IH 1. intros [f cs [x|] u s r]; [destruct cs; cbn [process]; constructor; apply shown_as|].
    destruct cs as [cs|]; cbn [process as_robj]; constructor. rewrite map_map. induction cs as [|c cs IHc]; cbn [map]; constructor; [apply IH | exact IHc].
  Qed.

  (** ** One call *)
  Definition first_where (a : args R) : res (clause (kept R)) := w <- extended (a_where a) (aw a) ;; Ok (as_clause (cleaned w)).
  Lemma ask_eq a : ask a = (w <- first_where a ;; q <- rs (Query (a_metrics a) (a_dims a) w (as_clause (cleaned (a_having a))) (as_clause (a_order a)) false) ;;
    Ok (Args (q_metrics q) (q_dims q) (where_left group_by get_mapped idents (a_where a) (aw a)) (having_left (a_having a)) (a_order a), q)).
  Proof. unfold Args_Model.ask, resolve_args, first_where, aw. destruct (extended (a_where a) (always (a_metrics a ++ a_dims a))) as [w|e]; reflexivity. Qed.
  Lemma ask_inv a a1 q : ask a = Ok (a1, q) -> exists w, first_where a = Ok w /\
    rs (Query (a_metrics a) (a_dims a) w (as_clause (cleaned (a_having a))) (as_clause (a_order a)) false) = Ok q /\
    a1 = Args (q_metrics q) (q_dims q) (where_left group_by get_mapped idents (a_where a) (aw a)) (having_left (a_having a)) (a_order a).
  Proof. rewrite ask_eq. intros E. apply bind_ok in E. destruct E as [w [F E]]. apply bind_ok in E. destruct E as [q' [Q E]]. injection E as <- <-. eauto. Qed.
  Lemma first_list a l : a_where a = AList l -> l <> [] -> first_where a = Ok (CList (map read l ++ map read (aw a))).
  Proof.
    intros W N. unfold first_where. rewrite W. assert (E : extended (AList l) (aw a) = Ok (AList (l ++ aw a))). { destruct l as [|d l]; [congruence|]. destruct (aw a); cbn [extended falsy]; [rewrite app_nil_r|]; reflexivity. }
    rewrite E. cbn [bind cleaned as_clause]. rewrite map_map, map_app. reflexivity.
  Qed.
  Lemma left_list a l : a_where a = AList l -> l <> [] -> exists ns, where_left group_by get_mapped idents (a_where a) (aw a) = AList (map (touched get_mapped ns) (l ++ aw a)).
  Proof. intros -> N. destruct l as [|d l]; [congruence|]. eexists. reflexivity. Qed.
  (** The clause is not a list with elements *)
  Lemma left_other a a' : conds_of (a_where a) = [] -> a_where a' = where_left group_by get_mapped idents (a_where a) (aw a) -> aw a' = aw a ->
    first_where a' = first_where a /\ conds_of (a_where a') = [].
  Proof.
    intros C W A. unfold first_where. rewrite A, W. destruct (a_where a) as [|t|d|l]; cbn [conds_of] in C; try subst l; cbn [where_left]; [split; reflexivity | split; reflexivity | | split; reflexivity].
    split; [|reflexivity]. assert (E : forall y, extended (ADict y) (aw a) = match aw a with [] => Ok (ADict y) | _ => Err AttributeError end) by (intros y; destruct (aw a); reflexivity). rewrite !E.
    destruct (aw a); [|reflexivity]. cbn [bind cleaned as_clause map]. rewrite as_robj_stamp. reflexivity.
  Qed.
  Lemma having_again c : Forall top_ok (conds_of c) -> as_clause (cleaned (having_left c)) = as_clause (cleaned c) /\ Forall top_ok (conds_of (having_left c)).
  Proof.
    destruct c as [|t|d|l]; cbn [conds_of having_left]; [auto | auto | auto|]. intros F. cbn [cleaned as_clause]. split.
    - f_equal. rewrite !map_map. apply map_ext_in. intros d I. rewrite Forall_forall in F. rewrite (leaves_cleaned R d (F d I)). reflexivity.
    - apply Forall_map. eapply Forall_impl; [|exact F]. intros d. apply leaves_ok.
  Qed.
  Lemma list_again (ns : list string) (l : list (cdict R)) : Forall top_ok l -> map read (map (touched get_mapped ns) l) = map read l /\ Forall top_ok (map (touched get_mapped ns) l).
  Proof.
    intros F. split.
    - rewrite map_map. apply map_ext_in. intros d I. rewrite Forall_forall in F. apply touched_cleaned. exact (F d I).
    - apply Forall_map. eapply Forall_impl; [|exact F]. intros d. apply touched_ok.
  Qed.
  (** Names that are not mapped stay *)
  Lemma names_of_answer q r : rs q = Ok r -> exists w h o, cfields (q_where q) = Ok w /\ cfields (q_having q) = Ok h /\ cfields (q_order q) = Ok o.
  Proof. unfold resolve. intros E. apply bind_ok in E. destruct E as [w [W E]]. apply bind_ok in E. destruct E as [h [H E]]. apply bind_ok in E. destruct E as [o [O _]]. eauto 6. Qed.
  Lemma lists_stay q r : rs q = Ok r -> (unmapped (q_metrics q) -> q_metrics r = q_metrics q) /\ (unmapped (q_dims q) -> q_dims r = q_dims q).
  Proof.
    intros E. destruct (names_of_answer q r E) as [w [h [o [W [H O]]]]]. destruct (trace _ kgb get_field get_mapped special n_measures enum idents q r w h o W H O E) as [t [S1 [_ [S3 _]]]].
    destruct (steps_lists _ _ _ _ _ S1) as [M D]. rewrite M, D. split; intros U; apply run_kept; intros x I K; apply S3 in K; destruct K as [_ K]; apply K; apply U; exact I.
  Qed.

  (** ** Any number of calls *)
  Lemma again_list r W A : forall n k a l, unmapped (a_metrics a ++ a_dims a) -> a_where a = AList l -> l <> [] -> Forall top_ok l -> Forall top_ok (conds_of (a_having a)) -> Forall top_ok (aw a) ->
    map read l = W ++ times k A -> map read (aw a) = A ->
    rs (Query (a_metrics a) (a_dims a) (CList (W ++ A)) (as_clause (cleaned (a_having a))) (as_clause (a_order a)) false) = Ok r ->
    exists an qn s, nth_ask n a = Ok (an, qn) /\ a_metrics an = a_metrics a /\ a_dims an = a_dims a /\ alike (kept R) get_mapped W A (S (k + n)) s r qn.
  Proof.
    induction n as [|n IH]; intros k a l U L N TL TH TA EL EA E.
    - cbn [nth_ask]. rewrite ask_eq, (first_list a l L N). cbn [bind]. rewrite EL, EA, <- app_assoc, <- times_S.
      destruct (resolve_times _ kgb get_field get_mapped special n_measures enum idents _ _ _ _ _ _ k r E) as [s [r' [E' AK]]]. rewrite E'. cbn [bind].
      destruct (lists_stay _ _ E') as [LM LD]. eexists. eexists. exists s. split; [reflexivity|]. cbn [a_metrics a_dims q_metrics q_dims] in *. rewrite LM, LD by (intros x I; apply U; rewrite in_app_iff; auto). rewrite Nat.add_0_r. auto.
    - cbn [nth_ask]. rewrite ask_eq, (first_list a l L N). cbn [bind]. rewrite EL, EA, <- app_assoc, <- times_S.
      destruct (resolve_times _ kgb get_field get_mapped special n_measures enum idents _ _ _ _ _ _ k r E) as [s [r' [E' AK]]]. rewrite E'. cbn [bind fst].
      destruct (lists_stay _ _ E') as [LM LD]. cbn [q_metrics q_dims] in LM, LD. rewrite LM, LD by (intros x I; apply U; rewrite in_app_iff; auto).
      destruct (left_list a l L N) as [ns LL]. rewrite LL. destruct (having_again (a_having a) TH) as [H1 H2].
      assert (TLA : Forall top_ok (l ++ aw a)) by (apply Forall_app; auto). destruct (list_again ns (l ++ aw a) TLA) as [L1 L2].
      set (a2 := Args (a_metrics a) (a_dims a) (AList (map (touched get_mapped ns) (l ++ aw a))) (having_left (a_having a)) (a_order a)).
      destruct (IH (S k) a2 (map (touched get_mapped ns) (l ++ aw a))) as [an [qn [s' [B1 [B2 [B3 B4]]]]]]; try assumption; try reflexivity.
      + destruct l; [congruence | discriminate].
      + rewrite L1, map_app, EL, EA, <- app_assoc, <- times_S. reflexivity.
      + cbn [a_metrics a_dims a_having a_order a2]. rewrite H1. exact E.
      + exists an, qn, s'. replace (k + S n) with (S k + n) by lia. auto.
  Qed.
  Lemma again_other r w : forall n a, unmapped (a_metrics a ++ a_dims a) -> conds_of (a_where a) = [] -> Forall top_ok (conds_of (a_having a)) -> first_where a = Ok w ->
    rs (Query (a_metrics a) (a_dims a) w (as_clause (cleaned (a_having a))) (as_clause (a_order a)) false) = Ok r ->
    exists an, nth_ask n a = Ok (an, r) /\ a_metrics an = a_metrics a /\ a_dims an = a_dims a.
  Proof.
    induction n as [|n IH]; intros a U C TH F E; cbn [nth_ask]; rewrite ask_eq, F; cbn [bind]; rewrite E; cbn [bind fst];
      destruct (lists_stay _ _ E) as [LM LD]; cbn [q_metrics q_dims] in LM, LD; rewrite LM, LD by (intros x I; apply U; rewrite in_app_iff; auto).
    - eexists. split; [reflexivity|]. split; reflexivity.
    - set (a2 := Args (a_metrics a) (a_dims a) (where_left group_by get_mapped idents (a_where a) (aw a)) (having_left (a_having a)) (a_order a)).
      destruct (having_again (a_having a) TH) as [H1 H2]. destruct (left_other a a2 C eq_refl eq_refl) as [F2 C2].
      apply (IH a2); try assumption; [rewrite F2; exact F|]. cbn [a_metrics a_dims a_having a_order a2]. rewrite H1. exact E.
  Qed.

  (** The same request, in which the conditions [A] that come with the views are repeated [k] times *)
  Definition same_but_repeated (a : args R) (k : nat) (q qn : query (kept R)) : Prop :=
    q_metrics qn = q_metrics q /\ q_dims qn = q_dims q /\ q_having qn = q_having q /\ q_order qn = q_order q /\
    (conds_of (a_where a) = [] -> q_where qn = q_where q) /\
    (conds_of (a_where a) <> [] -> exists s, (forall x, get_mapped x = None -> s x = x) /\
       q_where q = CList (map (renamed s) (map read (conds_of (a_where a)) ++ map read (aw a))) /\
       q_where qn = CList (map (renamed s) (map read (conds_of (a_where a)) ++ times k (map read (aw a))))).
  (** Nothing wrapped holds something wrapped *)
  Definition clean (a : args R) : Prop := Forall top_ok (conds_of (a_where a)) /\ Forall top_ok (conds_of (a_having a)) /\ Forall top_ok (aw a).

  (** With no mapped name among the metrics and dimensions, asking again is answered, every time with the same request,
      except that the conditions of always_filter are there once more each time when where is a list with elements *)
  Theorem C81_again a a1 q : unmapped (a_metrics a ++ a_dims a) -> clean a -> ask a = Ok (a1, q) ->
    forall n, exists an qn, nth_ask n a = Ok (an, qn) /\ a_metrics an = a_metrics a /\ a_dims an = a_dims a /\ same_but_repeated a (S n) q qn /\ q_forced qn = q_forced q.
  Proof.
    intros U [TW [TH TA]] E n. destruct (ask_inv a a1 q E) as [w [F [Q _]]]. destruct (conds_of (a_where a)) as [|d l] eqn:C.
    - destruct (again_other q w n a U C TH F Q) as [an [B1 [B2 B3]]]. exists an, q. split; [exact B1|]. split; [exact B2|]. split; [exact B3|]. split; [|reflexivity]. unfold same_but_repeated. rewrite C. do 4 (split; [reflexivity|]). split; [reflexivity | congruence].
    - assert (W : a_where a = AList (d :: l)) by (destruct (a_where a); cbn in C; congruence). assert (N : d :: l <> []) by discriminate. rewrite (first_list a _ W N) in F. injection F as <-.
      destruct (again_list q (map read (d :: l)) (map read (aw a)) n 0 a (d :: l)) as [an [qn [s [B1 [B2 [B3 B4]]]]]]; try assumption; try reflexivity; [cbn [times repeat List.concat]; rewrite app_nil_r; reflexivity|].
      exists an, qn. split; [exact B1|]. split; [exact B2|]. split; [exact B3|]. destruct B4 as [H1 H2 H3 H4 H5 H6 H7 H8]. split; [|exact H5]. unfold same_but_repeated. rewrite C. do 4 (split; [assumption|]). split; [discriminate|]. intros _. exists s. auto.
  Qed.
  (** Conditions said several times ask no more than said once *)
  Definition passes (holds : robj (kept R) -> Prop) (c : clause (kept R)) : Prop := match c with CList l => Forall holds l | _ => True end.
  Theorem C81_repeated a k q qn holds : same_but_repeated a (S k) q qn -> (passes holds (q_where qn) <-> passes holds (q_where q)).
  Proof.
    intros [_ [_ [_ [_ [S1 S2]]]]]. destruct (conds_of (a_where a)) as [|d l]; [rewrite S1 by reflexivity; reflexivity|]. destruct S2 as [s [_ [-> ->]]]; [discriminate|]. cbn [passes].
    assert (K : forall x, In x (map (renamed s) (map read (d :: l) ++ times (S k) (map read (aw a)))) <-> In x (map (renamed s) (map read (d :: l) ++ map read (aw a)))).
    { intros x. rewrite !in_map_iff. split; intros [y [Y I]]; exists y; (split; [exact Y|]); apply in_app_iff; apply in_app_iff in I; (destruct I as [I|I]; [left; exact I | right; apply (In_times k); exact I]). }
    rewrite !Forall_forall. split; intros H x I; apply H; apply K; exact I.
  Qed.

  (** ** Mapped names *)
  Hypothesis ids : forall x f, get_field x = Ok f -> get_mapped (fl_id f) = None /\ get_field (fl_id f) = Ok f.
  Lemma run_map t : NoDup (map fst t) -> (forall n f, In (n, f) t -> ~ In (fl_id f) (map fst t)) -> forall l, (forall n, In n (map fst t) -> count_occ string_dec l n <= 1) -> run t l = map (pick t) l.
  Proof.
    induction t as [|[n f] t IH]; intros ND ID l C; [unfold run, pick; cbn [fold_left assoc]; symmetry; apply map_id|].
    cbn [map fst] in ND. inversion ND as [|? ? N1 N2]; subst. unfold run. cbn [fold_left fst snd]. fold (run t (list_step n (fl_id f) l)).
    assert (ID' : forall k g, In (k, g) t -> ~ In (fl_id g) (map fst t)) by (intros k g I K; apply (ID k g (or_intror I)); right; exact K).
    rewrite IH; [|exact N2|exact ID'|].
    - unfold list_step. rewrite guarded_replace by (apply C; left; reflexivity). rewrite map_map. apply map_ext. intros x. unfold pick, sub1. cbn [assoc]. destruct (String.eqb_spec x n) as [->|]; [|reflexivity].
      replace (assoc (fl_id f) t) with (@None mfld); [reflexivity|]. symmetry. apply assoc_None. intros K. apply (ID n f (or_introl eq_refl)). right. exact K.
    - intros k K. rewrite list_step_count; [specialize (C k (or_intror K)); lia|]. intros Q. apply (ID n f (or_introl eq_refl)). right. rewrite Q. exact K.
  Qed.
  (** The lists are left with the fields that were chosen in the place of the mapped names *)
  Theorem C81_lists a a1 q : NoDup (a_metrics a) -> NoDup (a_dims a) -> ask a = Ok (a1, q) ->
    exists s, a_metrics a1 = map s (a_metrics a) /\ a_dims a1 = map s (a_dims a) /\ forall x, In x (a_metrics a ++ a_dims a) ->
      (get_mapped x = None -> s x = x) /\ (get_mapped x <> None -> exists y f, get_field y = Ok f /\ s x = fl_id f /\ s x <> x).
  Proof.
    intros NM ND E. destruct (ask_inv a a1 q E) as [cw [F [Q ->]]]. cbn [a_metrics a_dims]. destruct (names_of_answer _ _ Q) as [w [h [o [W [H O]]]]].
    destruct (trace _ kgb get_field get_mapped special n_measures enum idents _ _ w h o W H O Q) as [t [S1 [S2 [S3 [S4 S5]]]]]. destruct (steps_lists _ _ _ _ _ S1) as [M D]. cbn [q_metrics q_dims] in *.
    assert (ID : forall n f, In (n, f) t -> ~ In (fl_id f) (map fst t)). { intros n f I K. destruct (S4 n f I) as [x X]. apply S3 in K. destruct K as [_ K]. apply K. apply (ids x f X). }
    rewrite M, D. exists (pick t). assert (C : forall l, NoDup l -> forall n, In n (map fst t) -> count_occ string_dec l n <= 1) by (intros l NL n _; apply (proj1 (NoDup_count_occ string_dec l) NL)).
    rewrite !run_map by auto. split; [reflexivity|]. split; [reflexivity|]. intros x I. unfold pick. destruct (assoc x t) as [f|] eqn:AX.
    - apply assoc_In in AX. destruct (S4 x f AX) as [y Y]. assert (K : In x (map fst t)) by (apply in_map_iff; exists (x, f); auto). apply S3 in K. destruct K as [_ K]. split; [congruence|]. intros _. exists y, f. split; [exact Y|]. split; [reflexivity|].
      intros Z. rewrite <- Z in K. apply K. apply (ids y f Y).
    - split; [reflexivity|]. intros G. exfalso. apply assoc_None in AX. apply AX. apply S3. split; [|exact G]. rewrite !in_app_iff in *. tauto.
  Qed.

  (** The objects after a first call with mapped names, asked with again *)
  Lemma again_after a a1 q r : NoDup (a_metrics a) -> NoDup (a_dims a) -> clean a -> ask a = Ok (a1, q) -> aw a1 = aw a ->
    (forall w, first_where a = Ok w -> rs (Query (q_metrics q) (q_dims q) w (as_clause (cleaned (a_having a))) (as_clause (a_order a)) false) = Ok r) ->
    q_metrics r = q_metrics q -> q_dims r = q_dims q -> q_having r = q_having q -> q_order r = q_order q -> q_where r = q_where q ->
    forall n, exists an qn, nth_ask (S n) a = Ok (an, qn) /\ same_but_repeated a (S (S n)) q qn /\ q_forced qn = q_forced r.
  Proof.
    intros NM ND [TW [TH TA]] E AW B RM RD RH RO RW n. cbn [nth_ask]. rewrite E. cbn [bind fst].
    destruct (C81_lists a a1 q NM ND E) as [s0 [SM [SD SX]]].
    assert (U : unmapped (a_metrics a1 ++ a_dims a1)).
    { intros x I. rewrite SM, SD, <- map_app in I. apply in_map_iff in I. destruct I as [y [<- I]]. destruct (SX y I) as [S1 S2]. destruct (get_mapped y) as [m|] eqn:G; [|rewrite S1 by reflexivity; exact G].
      destruct S2 as [z [f [Z [-> _]]]]; [discriminate|]. apply (ids z f Z). }
    destruct (ask_inv a a1 q E) as [w [F [Q EA]]]. specialize (B w F). destruct (having_again (a_having a) TH) as [H1 H2].
    assert (M1 : a_metrics a1 = q_metrics q) by (rewrite EA; reflexivity). assert (D1 : a_dims a1 = q_dims q) by (rewrite EA; reflexivity). assert (HV : a_having a1 = having_left (a_having a)) by (rewrite EA; reflexivity).
    assert (OV : a_order a1 = a_order a) by (rewrite EA; reflexivity). assert (WV : a_where a1 = where_left group_by get_mapped idents (a_where a) (aw a)) by (rewrite EA; reflexivity). clear EA.
    rewrite <- H1, <- HV, <- OV, <- M1, <- D1 in B. destruct (conds_of (a_where a)) as [|d l] eqn:C.
    - destruct (left_other a a1 C WV AW) as [F2 C2]. rewrite <- F2 in F. rewrite <- HV in H2. destruct (again_other r w n a1 U C2 H2 F B) as [an [B1 _]]. exists an, r. split; [exact B1|]. split; [|reflexivity].
      unfold same_but_repeated. rewrite C. do 4 (split; [assumption|]). split; [intros _; exact RW | congruence].
    - assert (W : a_where a = AList (d :: l)) by (destruct (a_where a); cbn in C; congruence). assert (N : d :: l <> []) by discriminate. rewrite (first_list a _ W N) in F. injection F as <-.
      destruct (left_list a _ W N) as [ns LL]. rewrite LL in WV. assert (TLA : Forall top_ok ((d :: l) ++ aw a)) by (apply Forall_app; auto). destruct (list_again ns _ TLA) as [L1 L2].
      destruct (again_list r (map read (d :: l)) (map read (aw a)) n 1 a1 (map (touched get_mapped ns) ((d :: l) ++ aw a))) as [an [qn [s [B1 [_ [_ B4]]]]]].
      + exact U.
      + exact WV.
      + discriminate.
      + exact L2.
      + rewrite HV. exact H2.
      + rewrite AW. exact TA.
      + rewrite L1, map_app. unfold times. cbn [repeat List.concat]. rewrite app_nil_r. reflexivity.
      + rewrite AW. reflexivity.
      + exact B.
      + exists an, qn. split; [exact B1|]. destruct B4 as [G1 G2 G3 G4 G5 G6 G7 G8]. split; [|exact G5]. unfold same_but_repeated. rewrite C. split; [congruence|]. split; [congruence|]. split; [congruence|]. split; [congruence|].
        split; [discriminate|]. intros _. exists s. split; [exact G8|]. split; [congruence | exact G7].
  Qed.

  (** Mapped names among the metrics and dimensions only: the second time the chosen fields are asked for by name. The request
      is the same, except that it is never made a merged one because of its dates *)
  Theorem C81_again_replaced a a1 q : NoDup (a_metrics a) -> NoDup (a_dims a) -> clean a -> ask a = Ok (a1, q) -> aw a1 = aw a ->
    (forall w x h o, first_where a = Ok w -> cfields w = Ok x -> cfields (as_clause (cleaned (a_having a))) = Ok h -> cfields (as_clause (a_order a)) = Ok o -> unmapped (x ++ h ++ o)) ->
    forall n, exists an qn, nth_ask (S n) a = Ok (an, qn) /\ same_but_repeated a (S (S n)) q qn /\ q_forced qn = false.
  Proof.
    intros NM ND CL E AW UC. destruct (ask_inv a a1 q E) as [w [F [Q EA]]]. destruct (names_of_answer _ _ Q) as [wn [h [o [W [H O]]]]]. cbn [q_where q_having q_order] in W, H, O. specialize (UC w wn h o F W H O).
    destruct (trace _ kgb get_field get_mapped special n_measures enum idents (Query (a_metrics a) (a_dims a) w (as_clause (cleaned (a_having a))) (as_clause (a_order a)) false) q wn h o W H O Q) as [t [S1 [S2 [S3 [S4 S5]]]]]. destruct (steps_clauses _ _ _ _ _ S1) as [CW [CH CO]]. cbn [q_metrics q_dims q_where q_having q_order n_where n_having n_order] in *.
    assert (K : forall l, (forall x, In x l -> In x (wn ++ h ++ o)) -> forall x, In x l -> ~ In x (map fst t)) by (intros l LL x I J; apply S3 in J; destruct J as [_ J]; apply J; apply UC; apply LL; exact I).
    rewrite crun_none in CW by (apply K; intros x I; rewrite !in_app_iff; auto). rewrite crun_none in CH by (apply K; intros x I; rewrite !in_app_iff; auto). rewrite crun_none in CO by (apply K; intros x I; rewrite !in_app_iff; auto).
    apply (again_after a a1 q (Query (q_metrics q) (q_dims q) w (as_clause (cleaned (a_having a))) (as_clause (a_order a)) false)); try assumption; try reflexivity; try (cbn [q_having q_order q_where]; congruence).
    intros w' F'. assert (w' = w) by congruence. subst w'.
    destruct (C81_lists a a1 q NM ND E) as [s0 [SM [SD SX]]]. rewrite EA in SM, SD. cbn [a_metrics a_dims] in SM, SD.
    assert (U : forall x, In x (q_metrics q ++ q_dims q ++ wn ++ h ++ o) -> get_mapped x = None /\ exists f, get_field x = Ok f).
    { intros x I. assert (L : forall y, In y (a_metrics a ++ a_dims a) -> get_mapped (s0 y) = None /\ exists f, get_field (s0 y) = Ok f).
      { intros y IY. destruct (SX y IY) as [T1 T2]. destruct (get_mapped y) as [m|] eqn:G; [destruct T2 as [z [f [Z [-> _]]]]; [discriminate|]; destruct (ids z f Z); eauto|]. rewrite T1 by reflexivity. split; [exact G|]. apply S5; [|exact G]. rewrite !in_app_iff in *. tauto. }
      rewrite SM, SD in I. rewrite (app_assoc (map s0 _)), <- map_app in I. apply in_app_iff in I. destruct I as [I|I]; [apply in_map_iff in I; destruct I as [y [<- I]]; apply L; exact I|].
      split; [apply UC; exact I|]. apply S5; [|apply UC; exact I]. rewrite in_app_iff, in_app_iff. auto. }
    unfold resolve. cbn [q_metrics q_dims q_where q_having q_order]. rewrite W, H, O. cbn [bind]. cbn zeta. cbn [filter map]. rewrite app_nil_r.
    destruct (look_up_ok get_field get_mapped (q_metrics q ++ q_dims q ++ wn ++ h ++ o) [] []) as [[ml2 objs2] LU]; [intros x I; right; apply (U x I)|]. rewrite LU. cbn [bind].
    destruct ml2 as [|[k v] ml2]; [reflexivity|]. exfalso. destruct (look_up_spec get_field get_mapped special n_measures enum idents _ _ _ _ _ LU) as [A1 [_ [A3 _]]]; [constructor | discriminate | discriminate |].
    destruct v as [m b]. destruct (A3 k m b) as [G [B|B]]; [cbn [assoc]; rewrite String.eqb_refl; reflexivity | discriminate|]. apply in_map_iff in B. destruct B as [y [B I]]. injection B as <- <-. destruct (U y I) as [Z _]. congruence.
  Qed.

  (** Mapped names in the clauses too: the same fields are chosen again, when one join graph holds all the fields of the answer,
      some name is not mapped and no mapped name is a date mapping *)
  Theorem C81_again_chosen a a1 q g : NoDup (a_metrics a) -> NoDup (a_dims a) -> clean a -> ask a = Ok (a1, q) -> aw a1 = aw a ->
    (forall w, first_where a = Ok w -> plain_clause (kept R) w) -> plain_clause (kept R) (as_clause (cleaned (a_having a))) -> plain_clause (kept R) (as_clause (a_order a)) ->
    (forall w x h o, first_where a = Ok w -> cfields w = Ok x -> cfields (as_clause (cleaned (a_having a))) = Ok h -> cfields (as_clause (a_order a)) = Ok o ->
       let all := a_metrics a ++ a_dims a ++ x ++ h ++ o in
       (exists z, In z all /\ get_mapped z = None) /\ forall z m, In z all -> get_mapped z = Some m -> special (mp_name m) = false) ->
    contains "merged_result" g = false ->
    (forall w h o x f, cfields (q_where q) = Ok w -> cfields (q_having q) = Ok h -> cfields (q_order q) = Ok o -> In x (q_metrics q ++ q_dims q ++ w ++ h ++ o) -> get_field x = Ok f -> In g (fl_graphs f)) ->
    forall n, exists an qn, nth_ask (S n) a = Ok (an, qn) /\ same_but_repeated a (S (S n)) q qn /\ q_forced qn = q_forced q.
  Proof.
    intros NM ND CL E AW PW PH PO AL GM GC. destruct (ask_inv a a1 q E) as [w [F [Q EA]]]. destruct (names_of_answer _ _ Q) as [wn [h [o [W [H O]]]]]. cbn [q_where q_having q_order] in W, H, O. destruct (AL w wn h o F W H O) as [PZ SP].
    apply (again_after a a1 q q); try assumption; try reflexivity. intros w' F'. assert (w' = w) by congruence. subst w'.
    exact (again_mapped (kept R) kgb get_field get_mapped special n_measures enum idents ids _ _ _ _ _ _ wn h o g (PW w F) PH PO W H O NM ND SP PZ Q GM GC).
  Qed.

  (** ** When the objects are as before *)
  (** The dict is copied before it is written to, because of a mapped name *)
  Definition replaced_copy (ns : list string) (d : cdict R) : Prop :=
    (exists x, cd_field d = Some x /\ In x ns /\ get_mapped x <> None) \/ (cd_field d = None /\ cd_conds d <> None /\ exists x, In x ns /\ get_mapped x <> None).
  Definition stands_for (d x : cdict R) : Prop := cd_logic d = Some x \/ (cd_logic d = None /\ x = d).
  Definition in_where (c : aclause R) (x : cdict R) : Prop := match c with AList l => exists d, In d l /\ stands_for d x | ADict d => x = d | _ => False end.
  Definition asked_names (a : args R) : list string :=
    match a_where a with AList l => where_names group_by idents (cleaned (AList l)) | ADict d => where_names group_by idents (AList [d]) | _ => [] end.
  Lemma copied_spec ns d : copied get_mapped ns d = true <-> replaced_copy ns d.
  Proof.
    assert (M : forall x, is_mapped get_mapped x = true <-> get_mapped x <> None) by (intros x; unfold is_mapped; destruct (get_mapped x); split; congruence).
    unfold copied, replaced_copy. destruct (cd_field d) as [x|].
    - rewrite andb_true_iff, mem_In, M. split; [intros [I G]; left; eauto|]. intros [[y [E K]]|[E _]]; [injection E as <-; exact K | discriminate].
    - destruct (cd_conds d) as [cs|].
      + rewrite existsb_exists. split; [intros [x [I G]]; right; split; [reflexivity|]; split; [discriminate|]; exists x; rewrite <- M; auto|]. intros [[y [E _]]|[_ [_ [x [I G]]]]]; [discriminate|]. exists x. rewrite M. auto.
      + split; [discriminate|]. intros [[y [E _]]|[_ [E _]]]; congruence.
  Qed.
  Definition settled (ns : list string) (x : cdict R) : Prop := cd_funnel x = true -> cd_stamped x = true \/ replaced_copy ns x.
  Lemma stamp_same ns d : stamp get_mapped ns d = d <-> settled ns d.
  Proof.
    unfold settled. rewrite <- copied_spec. destruct d as [f cs l u s r]. cbn [stamp cd_funnel cd_stamped]. destruct u; cbn [andb]; [|split; [discriminate | reflexivity]].
    destruct (copied get_mapped ns (CDict f cs l true s r)); cbn [negb]; [split; auto|]. split; [intros E _; injection E as <-; auto|]. intros H. destruct (H eq_refl) as [->|K]; [reflexivity | discriminate].
  Qed.
  Lemma touched_same ns d : touched get_mapped ns d = d <-> (cd_logic d = None -> no_wrap d) /\ forall x, stands_for d x -> settled ns x.
  Proof.
    destruct d as [f cs [x|] u s r].
    - assert (E : touched get_mapped ns (CDict f cs (Some x) u s r) = CDict f cs (Some (stamp get_mapped ns x)) u s r) by (destruct cs; reflexivity). rewrite E. split.
      + intros K. injection K as K. split; [discriminate|]. intros y [Y|[Y _]]; [|discriminate]. injection Y as <-. apply stamp_same. exact K.
      + intros [_ K]. f_equal. f_equal. apply stamp_same. apply K. left. reflexivity.
    - set (d := CDict f cs None u s r). assert (E : touched get_mapped ns d = stamp get_mapped ns (process d)) by (destruct cs; reflexivity). rewrite E. split.
      + intros K. assert (P : process d = d).
        { destruct (stamp_parts R get_mapped ns (process d)) as [s' SP]. rewrite SP in K. unfold d in *. destruct cs as [cs|]; [|reflexivity]. cbn [process cd_field cd_conds cd_logic cd_funnel] in *. injection K as K _. rewrite K. reflexivity. }
        split; [intros _; apply process_same; exact P|]. intros y [Y|[_ ->]]; [discriminate|]. apply stamp_same. rewrite P in K. exact K.
      + intros [K1 K2]. rewrite (no_wrap_process R d (K1 eq_refl)). apply stamp_same. apply K2. right. split; reflexivity.
  Qed.
  Lemma map_same {A} (f : A -> A) l : map f l = l <-> forall x, In x l -> f x = x.
  Proof.
    induction l as [|y l IH]; cbn [map]; [split; [intros _ x [] | reflexivity]|]. split.
    - intros E. injection E as E1 E2. intros x [<-|I]; [exact E1 | apply IH; assumption].
    - intros H. rewrite (H y (or_introl eq_refl)). f_equal. apply IH. intros x I. apply H. right. exact I.
  Qed.
  Lemma where_same c (k : list (cdict R)) : where_left group_by get_mapped idents c k = c <->
    (conds_of c <> [] -> k = []) /\ (forall d, In d (conds_of c) -> cd_logic d = None -> no_wrap d) /\
    (forall x, in_where c x -> settled (match c with AList l => where_names group_by idents (cleaned (AList l)) | ADict d => where_names group_by idents (AList [d]) | _ => [] end) x).
  Proof.
    destruct c as [|t|d|l]; cbn [where_left conds_of in_where].
    - split; [intros _; split; [congruence|]; split; [intros d [] | intros x []] | reflexivity].
    - split; [intros _; split; [congruence|]; split; [intros d [] | intros x []] | reflexivity].
    - split.
      + intros E. injection E as E. split; [congruence|]. split; [intros y []|]. intros x ->. apply stamp_same. exact E.
      + intros [_ [_ H]]. f_equal. apply stamp_same. apply H. reflexivity.
    - destruct l as [|d l]; [split; [intros _; split; [congruence|]; split; [intros y [] | intros x [y [[] _]]] | reflexivity]|]. remember (d :: l) as m eqn:EM. assert (NE : m <> []) by (rewrite EM; discriminate). clear EM d l.
      replace (match m with [] => AList m | _ :: _ => AList (map (touched get_mapped (where_names group_by idents (cleaned (AList (m ++ k))))) (m ++ k)) end) with (AList (map (touched get_mapped (where_names group_by idents (cleaned (AList (m ++ k))))) (m ++ k))) by (destruct m; [congruence | reflexivity]).
      split.
      + intros E. injection E as E. assert (K : k = []). { apply (f_equal (@List.length _)) in E. rewrite map_length, app_length in E. destruct k; [reflexivity | cbn [List.length] in E; lia]. }
        subst k. rewrite app_nil_r in E. rewrite map_same in E. split; [reflexivity|]. split.
        * intros d I. exact (proj1 (proj1 (touched_same _ d) (E d I))).
        * intros x [d [I S]]. exact (proj2 (proj1 (touched_same _ d) (E d I)) x S).
      + intros [K [H1 H2]]. rewrite (K NE), app_nil_r. f_equal. apply map_same. intros d I. apply touched_same. split; [exact (H1 d I)|]. intros x S. apply H2. eauto.
  Qed.
  Lemma having_same c : having_left c = c <-> forall d : cdict R, In d (conds_of c) -> cd_logic d = None -> no_wrap d.
  Proof.
    destruct c as [|t|d|l]; cbn [having_left conds_of]; try (split; [intros _ d' [] | reflexivity]). split.
    - intros E. injection E as E. rewrite map_same in E. intros d I L. specialize (E d I). unfold process_leaves in E. rewrite L in E. apply process_same. exact E.
    - intros H. f_equal. apply map_same. intros d I. unfold process_leaves. destruct (cd_logic d) eqn:L; [reflexivity|]. apply no_wrap_process. apply H; assumption.
  Qed.
  (** A call leaves its objects as they were exactly when it asks for no metric and no dimension by a mapped name, adds no
      condition to a list it was given, unwraps nothing inside a group, and meets no funnel condition of the caller's *)
  Theorem C81_unchanged a a1 q : ask a = Ok (a1, q) ->
    (a1 = a <-> unmapped (a_metrics a ++ a_dims a) /\ (conds_of (a_where a) <> [] -> aw a = []) /\
       (forall d, In d (conds_of (a_where a) ++ conds_of (a_having a)) -> cd_logic d = None -> no_wrap d) /\
       (forall x, in_where (a_where a) x -> cd_funnel x = true -> cd_stamped x = true \/ replaced_copy (asked_names a) x)).
  Proof.
    intros E. destruct (ask_inv a a1 q E) as [cw [F [Q EA]]]. destruct (lists_stay _ _ Q) as [LM LD]. cbn [q_metrics q_dims] in LM, LD.
    destruct (names_of_answer _ _ Q) as [w [h [o [W [H O]]]]]. destruct (trace _ kgb get_field get_mapped special n_measures enum idents _ _ w h o W H O Q) as [t [S1 [S2 [S3 [S4 S5]]]]]. destruct (steps_lists _ _ _ _ _ S1) as [M D]. cbn [q_metrics q_dims] in *.
    assert (NOT : forall l, (forall x, In x l -> In x (a_metrics a ++ a_dims a ++ w ++ h ++ o)) -> run t l = l -> unmapped l).
    { intros l LA EQ x I. destruct (get_mapped x) as [mp|] eqn:G; [|reflexivity]. exfalso. assert (K : In x (map fst t)) by (apply S3; split; [apply LA; exact I | congruence]).
      assert (C : count_occ string_dec (run t l) x = count_occ string_dec l x - count_occ string_dec (map fst t) x). { apply run_count. intros n f J Z. destruct (S4 n f J) as [y Y]. destruct (ids y f Y) as [Z' _]. congruence. }
      rewrite EQ in C. apply (count_occ_In string_dec) in I, K. lia. }
    pose proof (where_same (a_where a) (aw a)) as WS. pose proof (having_same (a_having a)) as HS. fold (asked_names a) in WS. split.
    - intros K. rewrite EA in K. destruct a as [am ad aw0 ah ao]. cbn [a_metrics a_dims a_where a_having a_order] in *. injection K as K1 K2 K3 K4. apply (proj1 WS) in K3. pose proof (proj1 HS K4) as K5. destruct K3 as [K31 [K32 K33]].
      split; [|split; [exact K31|split; [|exact K33]]].
      + intros x I. apply in_app_iff in I. destruct I as [I|I]; [apply (NOT am) | apply (NOT ad)]; try exact I; try congruence; intros y J; rewrite !in_app_iff; auto.
      + intros d I. apply in_app_iff in I. destruct I as [I|I]; [apply K32 | apply K5]; exact I.
    - intros [K1 [K2 [K3 K4]]]. rewrite EA. rewrite LM, LD by (intros x I; apply K1; rewrite in_app_iff; auto). rewrite (proj2 WS), (proj2 HS); [destruct a; reflexivity | |].
      + intros d I. apply K3. rewrite in_app_iff. auto.
      + split; [exact K2|]. split; [intros d I; apply K3; rewrite in_app_iff; auto | exact K4].
  Qed.
End C81.
Arguments conds_of {R}. Arguments top_ok {R}.
Print Assumptions C81_read.
Print Assumptions C81_again.
Print Assumptions C81_repeated.
Print Assumptions C81_lists.
Print Assumptions C81_again_replaced.
Print Assumptions C81_again_chosen.
Print Assumptions C81_unchanged.

(** ** Cases *)
Definition ax_fields : list (string * mfld) :=
  [("orders.total", MFld "orders.total" ["subquery_0"; "merged_result_orders.total"] (Some "orders.order"));
   ("sessions.total", MFld "sessions.total" ["subquery_1"; "merged_result_orders.total"] (Some "sessions.start"));
   ("customers.count", MFld "customers.count" ["subquery_0"] None);
   ("orders.region", MFld "orders.region" ["subquery_0"] None); ("sessions.region", MFld "sessions.region" ["subquery_1"] None);
   ("customers.city", MFld "customers.city" ["subquery_0"] None); ("customers.active", MFld "customers.active" ["subquery_0"] None); ("orders.paid", MFld "orders.paid" ["subquery_0"; "merged_result_orders.total"] None);
   ("orders.order_date", MFld "orders.order_date" ["subquery_0"; "merged_result_orders.total"] None);
   ("a.region", MFld "a.region" ["subquery_2"] None); ("b.region", MFld "b.region" ["subquery_2"] None); ("a.channel", MFld "a.channel" ["subquery_2"] None)].
Definition ax_get (x : string) : res mfld := match assoc x ax_fields with Some f => Ok f | None => Err AccessDenied end.
Definition ax_mapped (x : string) : option mapping :=
  assoc x [("region", Mapping "region" ["sessions.region"; "orders.region"]); ("city", Mapping "city" ["customers.city"]); ("date", Mapping "date" ["orders.order_date"]);
           ("area", Mapping "area" ["b.region"; "a.region"]); ("channel", Mapping "channel" ["a.channel"])].
Definition cond (x : string) : cdict unit := CDict (Some x) None None false false tt.
(** orders are always asked with orders.paid, customers with customers.active *)
Definition ax_always (l : list string) : list (cdict unit) :=
  (if existsb (String.prefix "orders.") l then [cond "orders.paid"] else []) ++ (if existsb (String.prefix "customers.") l then [cond "customers.active"] else []).
Definition ax_ask := ask (fun _ : unit => false) ax_get ax_mapped (fun n => String.eqb n "date") (fun _ => Ok 0) (fun l => l) (fun _ => []) ax_always.
Definition obj (x : string) : robj (kept unit) := RDict (Some x) None (tt, false, None).
Lemma ax_ids x f : ax_get x = Ok f -> ax_mapped (fl_id f) = None /\ ax_get (fl_id f) = Ok f.
Proof.
  intros E. unfold ax_get in E. destruct (assoc x ax_fields) as [g|] eqn:A; [|discriminate]. injection E as <-.
  apply assoc_In in A. cbn in A. repeat (destruct A as [A|A]; [injection A as <- <-; split; reflexivity|]). destruct A.
Qed.
(** A mapped name among the dimensions and in the conditions: the second request has orders.paid twice and nothing else has changed *)
Definition ax_a : args unit := Args ["orders.total"] ["region"] (AList [cond "region"; CDict None None (Some (cond "customers.city")) false false tt]) ANone (AList [cond "region"]).
Example C81_case :
  (exists a1 q, ax_ask ax_a = Ok (a1, q) /\ a_dims a1 = ["orders.region"] /\
     ax_ask a1 = Ok (Args ["orders.total"] ["orders.region"] (AList [cond "region"; CDict None None (Some (cond "customers.city")) false false tt; cond "orders.paid"; cond "orders.paid"]) ANone (AList [cond "region"]),
       Query ["orders.total"] ["orders.region"] (CList [obj "orders.region"; obj "customers.city"; obj "orders.paid"; obj "orders.paid"]) CNone (CList [obj "orders.region"]) false)) /\
  forall n, exists an qn a1 q, ax_ask ax_a = Ok (a1, q) /\ nth_ask unit (fun _ => false) ax_get ax_mapped (fun n => String.eqb n "date") (fun _ => Ok 0) (fun l => l) (fun _ => []) ax_always (S n) ax_a = Ok (an, qn) /\
    same_but_repeated unit ax_mapped ax_always ax_a (S (S n)) q qn.
Proof.
  split; [eexists; eexists; split; [vm_compute; reflexivity|]; split; [reflexivity | vm_compute; reflexivity]|].
  assert (E : exists a1 q, ax_ask ax_a = Ok (a1, q)) by (eexists; eexists; vm_compute; reflexivity). destruct E as [a1 [q E]]. pose proof E as E'. vm_compute in E'. injection E' as <- <-.
  intros n. destruct (fun p1 p2 p3 p4 p5 p6 p7 p8 p9 p10 => C81_again_chosen unit (fun _ => false) ax_get ax_mapped (fun n => String.eqb n "date") (fun _ => Ok 0) (fun l => l) (fun _ => []) ax_always ax_ids ax_a _ _ "subquery_0" p1 p2 p3 E p4 p5 p6 p7 p8 p9 p10 n) as [an [qn [H1 [H2 _]]]].
  - repeat constructor; intros [].
  - repeat constructor; intros [].
  - split; [|split]; repeat constructor; intros K; try discriminate K; exact I.
  - reflexivity.
  - intros w F. vm_compute in F. injection F as <-. repeat constructor.
  - exact I.
  - repeat constructor.
  - intros w x h o F X H O. vm_compute in F. injection F as <-. vm_compute in X. injection X as <-. vm_compute in H. injection H as <-. vm_compute in O. injection O as <-. split; [exists "orders.total"; split; [left; reflexivity | reflexivity]|].
    intros z m Z G. cbn in Z. repeat (destruct Z as [<-|Z]; [vm_compute in G; try discriminate G; injection G as <-; reflexivity|]). destruct Z.
  - reflexivity.
  - intros w h o x f W H O Z F. vm_compute in W. injection W as <-. vm_compute in H. injection H as <-. vm_compute in O. injection O as <-. cbn in Z. repeat (destruct Z as [<-|Z]; [vm_compute in F; injection F as <-; left; reflexivity|]). destruct Z.
  - exists an, qn. eexists. eexists. split; [exact E|]. auto.
Qed.
(** Asking again restricts the rows more: the conditions of a view reached by a mapped name are not there the first time and
    are the second, when its field is asked for by name *)
Theorem C81_other_rows_refuted : exists a a1 q1 a2 q2, ax_ask a = Ok (a1, q1) /\ ax_ask a1 = Ok (a2, q2) /\ a_where a = ANone /\
  q_dims q1 = ["customers.city"] /\ q_where q1 = CList [obj "orders.paid"] /\ q_dims q2 = ["customers.city"] /\ q_where q2 = CList [obj "orders.paid"; obj "customers.active"].
Proof. exists (Args ["orders.total"] ["city"] ANone ANone ANone). do 4 eexists. split; [vm_compute; reflexivity|]. split; [vm_compute; reflexivity|]. repeat split. Qed.
(** A query made a merged one by its date mapping is not a merged one when asked again *)
Theorem C81_not_merged_refuted : exists a a1 q1 a2 q2, ax_ask a = Ok (a1, q1) /\ ax_ask a1 = Ok (a2, q2) /\ q_dims q2 = q_dims q1 /\ q_forced q1 = true /\ q_forced q2 = false.
Proof. exists (Args ["orders.total"; "sessions.total"] ["date"] ANone ANone ANone). do 4 eexists. split; [vm_compute; reflexivity|]. split; [vm_compute; reflexivity|]. repeat split. Qed.
(** A list of dimensions used for one query means something else in the next *)
Theorem C81_reused_dimensions_refuted : exists d a1 q1 q2 q3 a2 a3, ax_ask (Args ["orders.total"] d ANone ANone ANone) = Ok (a1, q1) /\
  ax_ask (Args ["sessions.total"] d ANone ANone ANone) = Ok (a2, q2) /\ ax_ask (Args ["sessions.total"] (a_dims a1) ANone ANone ANone) = Ok (a3, q3) /\
  q_dims q2 = ["sessions.region"] /\ q_dims q3 = ["orders.region"].
Proof. exists ["region"]. do 6 eexists. split; [vm_compute; reflexivity|]. split; [vm_compute; reflexivity|]. split; [vm_compute; reflexivity|]. split; reflexivity. Qed.
(** A list of conditions used for one query brings its always_filter to the next *)
Theorem C81_reused_where_refuted : exists w a1 q1 a2 q2, ax_ask (Args ["customers.count"] [] w ANone ANone) = Ok (a1, q1) /\
  ax_ask (Args ["orders.total"] [] (a_where a1) ANone ANone) = Ok (a2, q2) /\ w = AList [cond "orders.region"] /\ q_where q2 = CList [obj "orders.region"; obj "customers.active"; obj "orders.paid"].
Proof. exists (AList [cond "orders.region"]). do 4 eexists. split; [vm_compute; reflexivity|]. split; [vm_compute; reflexivity|]. split; reflexivity. Qed.
(** Conditions wrapped twice inside a group are unwrapped once each time *)
Definition wrap (d : cdict unit) : cdict unit := CDict None None (Some d) false false tt.
Theorem C81_wrapped_twice_refuted : exists a a1 q1 a2 q2 r1 r2, ax_ask a = Ok (a1, q1) /\ ax_ask a1 = Ok (a2, q2) /\
  q_where q1 = CList [RDict None (Some [RDict (Some "orders.region") None r1]) r2] /\ q_where q2 = CList [RDict None (Some [obj "customers.city"]) r2].
Proof.
  exists (Args ["sessions.total"] [] (AList [CDict None (Some [wrap (CDict (Some "orders.region") None (Some (cond "customers.city")) false false tt)]) None false false tt]) ANone ANone).
  do 6 eexists. split; [vm_compute; reflexivity|]. split; [vm_compute; reflexivity|]. split; reflexivity.
Qed.
(** A funnel condition is left with the query built for it *)
Theorem C81_funnel_left_refuted : exists d d' a1 q, ax_ask (Args ["sessions.total"] [] (AList [d]) ANone ANone) = Ok (a1, q) /\ a_where a1 = AList [d'] /\ cd_stamped d = false /\ cd_stamped d' = true.
Proof. exists (CDict (Some "sessions.region") None None true false tt). do 3 eexists. split; [vm_compute; reflexivity|]. repeat split. Qed.
(** A query of mapped names only: the condition is about another field the second time *)
Theorem C81_only_mapped_refuted : exists a a1 q1 a2 q2, ax_ask a = Ok (a1, q1) /\ ax_ask a1 = Ok (a2, q2) /\ q_dims q1 = ["a.region"; "a.channel"] /\ q_where q1 = CList [obj "a.region"] /\
  q_dims q2 = ["a.region"; "a.channel"] /\ q_where q2 = CList [obj "b.region"].
Proof. exists (Args [] ["area"; "channel"] (AList [cond "area"]) ANone ANone). do 4 eexists. split; [vm_compute; reflexivity|]. split; [vm_compute; reflexivity|]. repeat split. Qed.
Print Assumptions C81_other_rows_refuted.
Print Assumptions C81_not_merged_refuted.
Print Assumptions C81_reused_dimensions_refuted.
Print Assumptions C81_reused_where_refuted.
Print Assumptions C81_wrapped_twice_refuted.
Print Assumptions C81_funnel_left_refuted.
Print Assumptions C81_only_mapped_refuted.
