(** Specification and property theorems: C28, C29. *)
From Verif Require Import PyBase PyStr PyReplace Core_Model Resolve_Model.
Local Open Scope string_scope.
Local Open Scope list_scope.

(** ** C28 *)
(** Explicitly merged: some metric is (all the ones before it could be looked up), or the caller or a date
    mapping asks for it *)
Inductive explicit (metrics : list (res bool)) (specified forced : bool) : Prop :=
| by_metric i : nth_error metrics i = Some (Ok true) -> (forall j, j < i -> nth_error metrics j = Some (Ok false)) -> explicit metrics specified forced
| by_flag : (forall r, In r metrics -> r = Ok false) -> specified = true \/ forced = true -> explicit metrics specified forced.
Definition implicit (metrics : list (res bool)) (specified forced : bool) : Prop :=
  (forall r, In r metrics -> r = Ok false) /\ specified = false /\ forced = false.

Lemma any_res_spec l b : any_res l = Ok b ->
  if b then exists i, nth_error l i = Some (Ok true) /\ forall j, j < i -> nth_error l j = Some (Ok false) else forall r, In r l -> r = Ok false.
Proof.
  revert b. induction l as [|r l IH]; intros b E; cbn [any_res] in E; [injection E as <-; intros r []|].
  apply bind_ok in E. destruct E as [x [-> E]]. destruct x.
  - injection E as <-. exists 0. split; [reflexivity | intros j H; lia].
  - specialize (IH b E). destruct b.
    + destruct IH as [i [N B]]. exists (S i). split; [exact N|]. intros [|j] H; [reflexivity | apply B; lia].
    + intros r [<-|I]; [reflexivity | apply IH; exact I].
Qed.
Lemma any_res_true l i : nth_error l i = Some (Ok true) -> (forall j, j < i -> nth_error l j = Some (Ok false)) -> any_res l = Ok true.
Proof.
  revert i. induction l as [|r l IH]; intros i N B; [destruct i; discriminate|]. cbn [any_res]. destruct i as [|i].
  - injection N as ->. reflexivity.
  - specialize (B 0 ltac:(lia)) as B0. injection B0 as ->. cbn [bind]. apply (IH i N). intros j H. apply (B (S j)). lia.
Qed.
Lemma any_res_false l : (forall r, In r l -> r = Ok false) -> any_res l = Ok false.
Proof. induction l as [|r l IH]; intros H; [reflexivity|]. cbn [any_res]. rewrite (H r (or_introl eq_refl)). cbn [bind]. apply IH. intros x I. apply H. right. exact I. Qed.

(** What runs, and what comes back *)
Theorem C28_fallback {T} metrics specified forced single_query (single merged : res T) :
  let '(ran, out) := get_query metrics specified forced single_query single merged in
  (explicit metrics specified forced -> ran = [Merged] /\ out = merged) /\
  (implicit metrics specified forced ->
     (forall q, single = Ok q -> ran = [Single] /\ out = Ok q) /\
     (forall e, single = Err e -> e <> JoinError \/ single_query = true -> ran = [Single] /\ out = Err e) /\
     (single = Err JoinError -> single_query = false -> ran = [Single; Merged] /\ out = merged)) /\
  (In Merged ran -> explicit metrics specified forced \/ (implicit metrics specified forced /\ single = Err JoinError /\ single_query = false)) /\
  (In Single ran -> implicit metrics specified forced).
Proof.
  assert (EX : forall b, is_merged_result metrics specified forced = Ok b -> if b then explicit metrics specified forced else implicit metrics specified forced).
  { intros b H. unfold is_merged_result in H. apply bind_ok in H. destruct H as [x [A B]]. injection B as <-. apply any_res_spec in A. destruct x.
    - destruct A as [i [N B]]. eapply by_metric; eassumption.
    - destruct specified; [apply by_flag; auto|]. destruct forced; [apply by_flag; auto|]. repeat split; auto. }
  assert (XE : explicit metrics specified forced -> is_merged_result metrics specified forced = Ok true).
  { unfold is_merged_result. intros [i N B|A F]; [rewrite (any_res_true _ i N B); reflexivity | rewrite (any_res_false _ A); destruct F as [-> | ->]; [|destruct specified]; reflexivity]. }
  assert (XI : implicit metrics specified forced -> is_merged_result metrics specified forced = Ok false).
  { unfold is_merged_result. intros [A [-> ->]]. rewrite (any_res_false _ A). reflexivity. }
  unfold get_query. destruct (is_merged_result metrics specified forced) as [[]|e] eqn:M.
  - specialize (EX true eq_refl). split; [auto|]. split; [intros H; specialize (XI H); discriminate|]. split; [auto|]. intros [H|[]]; discriminate H.
  - specialize (EX false eq_refl). assert (NX : ~ explicit metrics specified forced) by (intros H; specialize (XE H); discriminate).
    assert (OTHER : forall e, e <> JoinError -> (match e with JoinError => if single_query then ([Single], Err JoinError) else ([Single; Merged], merged) | _ => ([Single], Err e) end) = ([Single], Err e))
      by (intros e; destruct e; intros H; reflexivity || congruence).
    destruct single as [q|e].
    + split; [intros H; contradiction|]. split; [|split; [intros [H|[]]; discriminate H | auto]]. intros _. split; [intros x H; injection H as <-; auto|]. split; intros; discriminate.
    + destruct (exc_eqb e JoinError) eqn:J; [apply exc_eqb_eq in J; subst e|].
      * destruct single_query; (split; [intros H; contradiction|]).
        -- split; [|split; [intros [H|[]]; discriminate H | auto]]. intros _. split; [intros; discriminate|]. split; [intros e H _; injection H as <-; auto | intros; discriminate].
        -- split; [|split; [auto | auto]]. intros _. split; [intros; discriminate|]. split; [intros e H [N|N]; [injection H as <-; congruence | discriminate] | auto].
      * assert (NJ : e <> JoinError) by (intros ->; discriminate J). rewrite OTHER by exact NJ. split; [intros H; contradiction|].
        split; [|split; [intros [H|[]]; discriminate H | auto]]. intros _. split; [intros; discriminate|]. split; [intros x H _; injection H as <-; auto | intros H; injection H as ->; congruence].
  - split; [intros H; specialize (XE H); discriminate|]. split; [intros H; specialize (XI H); discriminate|]. split; intros [].
Qed.
(** A metric that cannot be looked up stops the query before either resolver runs *)
Theorem C28_unknown_metric {T} metrics specified forced sq (single merged : res T) i e :
  nth_error metrics i = Some (Err e) -> (forall j, j < i -> nth_error metrics j = Some (Ok false)) ->
  get_query metrics specified forced sq single merged = ([], Err e).
Proof.
  intros N B. assert (A : any_res metrics = Err e).
  { revert i N B. induction metrics as [|r l IH]; intros i N B; [destruct i; discriminate|]. cbn [any_res]. destruct i as [|i].
    - injection N as ->. reflexivity.
    - specialize (B 0 ltac:(lia)) as B0. injection B0 as ->. cbn [bind]. apply (IH i N). intros j H. apply (B (S j)). lia. }
  unfold get_query, is_merged_result. rewrite A. reflexivity.
Qed.
Print Assumptions C28_fallback.
Print Assumptions C28_unknown_metric.
Example C28_case :
  implicit [Ok false; Ok false] false false /\
  get_query [Ok false; Ok false] false false false (Err JoinError : res string) (Ok "merged") = ([Single; Merged], Ok "merged") /\
  get_query [Ok false; Ok false] false false true (Err JoinError) (Ok "merged") = ([Single], Err JoinError) /\
  get_query [Ok false; Ok true; Err AccessDenied] false false false (Ok "single") (Ok "merged") = ([Merged], Ok "merged").
Proof. split; [|repeat split]. split; [intros r [<-|[<-|[]]]; reflexivity | auto]. Qed.

(** ** C29 *)
Section C29.
  Variables R C : Type.
  Variable parse : adict R -> res (list C).
  Variable view_of : string -> res aview.
  Variable c_eqb : C -> C -> bool.
  Hypothesis c_eqb_eq : forall a b, c_eqb a b = true <-> a = b.
  Notation collect := (collect parse view_of).
  Notation apply := (apply_always_filter parse view_of c_eqb).

  (** The dict as view [v] means it *)
  Definition meant (v : aview) (f : adict R) : adict R :=
    match ad_field f with
    | Some x => if contains "." x then f else ADict (Some (av_name v ++ "." ++ x)%string) (ad_rest f)
    | None => f
    end.
  (** Stores reached by earlier queries *)
  Inductive reached (s0 : store R) : store R -> Prop :=
  | reached_init : reached s0 s0
  | reached_query s fields : reached s0 s -> reached s0 (fst (apply fields s)).
  (** No two views of different names share a filter dict *)
  Definition unshared : Prop := forall x y v w a, view_of x = Ok v -> view_of y = Ok w -> In a (av_filters v) -> In a (av_filters w) -> av_name v = av_name w.
  (** All filters of [v] can be parsed *)
  Definition parses (s0 : store R) (v : aview) : Prop :=
    forall a, In a (av_filters v) -> exists f x cs, nth_error s0 a = Some f /\ ad_field f = Some x /\ parse (meant v f) = Ok cs.
  (** What the selected fields ask for, in order *)
  Definition view_conditions (s0 : store R) (v : aview) : list C :=
    flat_map (fun a => match nth_error s0 a with Some f => match parse (meant v f) with Ok cs => cs | Err _ => [] end | None => [] end) (av_filters v).
  Definition asked (s0 : store R) (fields : list string) : list C :=
    flat_map (fun x => match view_of x with Ok v => view_conditions s0 v | Err _ => [] end) fields.

  (** *** The store *)
  Definition legit (s0 s : store R) : Prop :=
    forall a, nth_error s a = nth_error s0 a \/ exists x v f, view_of x = Ok v /\ In a (av_filters v) /\ nth_error s0 a = Some f /\ nth_error s a = Some (meant v f).
  Lemma update_same (s : store R) a d : a < List.length s -> nth_error (update s a d) a = Some d.
  Proof. revert a. induction s as [|x s IH]; intros [|a] L; simpl in *; try lia; [reflexivity | apply IH; lia]. Qed.
  Lemma update_other (s : store R) a b d : a <> b -> nth_error (update s a d) b = nth_error s b.
  Proof. revert a b. induction s as [|x s IH]; intros [|a] [|b] N; simpl; try reflexivity; try congruence. apply IH. congruence. Qed.
  Lemma dotted v x : contains "." (v ++ "." ++ x) = true.
  Proof. apply contains_spec. exists v, x. reflexivity. Qed.
  Lemma meant_idem v w f : meant w (meant v f) = meant v f \/ (exists x, ad_field f = Some x /\ contains "." x = true /\ meant v f = f /\ meant w f = f).
  Proof.
    unfold meant. destruct (ad_field f) as [x|] eqn:F; [|left; rewrite F; reflexivity].
    destruct (contains "." x) eqn:D; [right; exists x; rewrite D; auto|]. left. cbn [ad_field]. rewrite dotted. reflexivity.
  Qed.
  Lemma meant_meant v w f : meant w (meant v f) = meant v f.
  Proof. destruct (meant_idem v w f) as [H|[x [F [D [M1 M2]]]]]; [exact H | rewrite M1; exact M2]. Qed.
  Lemma meant_name v w f : av_name v = av_name w -> meant v f = meant w f.
  Proof. unfold meant. intros ->. reflexivity. Qed.
  Lemma meant_field v f x : ad_field f = Some x -> exists y, ad_field (meant v f) = Some y.
  Proof. unfold meant. intros F. rewrite F. destruct (contains "." x); [exists x; exact F | eexists; reflexivity]. Qed.
  (** Reading an address through its view, in any legitimate store *)
  Lemma legit_meant s0 s x v a f : unshared -> legit s0 s -> view_of x = Ok v -> In a (av_filters v) -> nth_error s0 a = Some f ->
    exists g, nth_error s a = Some g /\ meant v g = meant v f.
  Proof.
    intros U L X I N. destruct (L a) as [E|[y [w [f' [Y [J [N' E]]]]]]].
    - exists f. rewrite E. auto.
    - rewrite N in N'. injection N' as <-. exists (meant w f). split; [exact E|]. rewrite meant_meant. apply meant_name. symmetry. exact (U x y v w a X Y I J).
  Qed.
  Lemma qualify_meant v s a g x : nth_error s a = Some g -> ad_field g = Some x ->
    qualify_at v s a = Ok (if contains "." x then s else update s a (meant v g), meant v g).
  Proof. intros N F. unfold qualify_at, meant. rewrite N, F. destruct (contains "." x); reflexivity. Qed.
  Lemma legit_field s0 s x v a f : unshared -> legit s0 s -> view_of x = Ok v -> In a (av_filters v) -> nth_error s0 a = Some f ->
    forall s', (forall b, b <> a -> nth_error s' b = nth_error s b) -> nth_error s' a = Some (meant v f) -> legit s0 s'.
  Proof.
    intros U L X I N s' O E b. destruct (Nat.eq_dec b a) as [->|D]; [right; exists x, v, f; auto|]. rewrite (O b D). apply L.
  Qed.
  Lemma qualify_legit s0 s x v a s' g : unshared -> legit s0 s -> view_of x = Ok v -> In a (av_filters v) -> qualify_at v s a = Ok (s', g) -> legit s0 s'.
  Proof.
    intros U L X I Q. unfold qualify_at in Q. destruct (nth_error s a) as [h|] eqn:N; [|discriminate]. destruct (ad_field h) as [y|] eqn:F; [|discriminate].
    destruct (contains "." y) eqn:D; injection Q as <- <-; [exact L|].
    assert (N0 : exists f, nth_error s0 a = Some f /\ meant v f = ADict (Some (av_name v ++ "." ++ y)%string) (ad_rest h)).
    { destruct (L a) as [E|[z [w [f [Z [J [N' E]]]]]]].
      - exists h. rewrite <- E. split; [exact N|]. unfold meant. rewrite F, D. reflexivity.
      - exists f. split; [exact N'|]. rewrite E in N. injection N as <-.
        rewrite <- (meant_name w v) by (symmetry; exact (U x z v w a X Z I J)).
        rewrite (U x z v w a X Z I J). transitivity (meant w (meant w f)); [symmetry; apply meant_meant|]. unfold meant at 1. rewrite F, D. reflexivity. }
    destruct N0 as [f [N0 M]]. eapply legit_field; try eassumption.
    - intros b D'. apply update_other. congruence.
    - rewrite M. apply update_same. apply nth_error_Some. congruence.
  Qed.
  Lemma view_filters_legit s0 x v : unshared -> view_of x = Ok v -> forall addrs s acc, (forall a, In a addrs -> In a (av_filters v)) -> legit s0 s ->
    legit s0 (fst (view_filters parse v addrs s acc)).
  Proof.
    intros U X. induction addrs as [|a addrs IH]; intros s acc SUB L; cbn [view_filters]; [exact L|].
    destruct (qualify_at v s a) as [[s' g]|e] eqn:Q; [|exact L].
    assert (L' : legit s0 s') by (eapply qualify_legit; try eassumption; apply SUB; left; reflexivity).
    destruct (parse g) as [cs|e]; [|exact L']. apply IH; [intros b I; apply SUB; right; exact I | exact L'].
  Qed.
  Lemma collect_legit s0 fields : unshared -> forall s, legit s0 s -> legit s0 (fst (collect fields s)).
  Proof.
    intros U. induction fields as [|x fields IH]; intros s L; cbn [Resolve_Model.collect]; [exact L|].
    destruct (view_of x) as [v|e] eqn:X; [|apply IH; exact L].
    pose proof (view_filters_legit s0 x v U X (av_filters v) s [] (fun a I => I) L) as L1. destruct (view_filters parse v (av_filters v) s []) as [s1 p].
    specialize (IH s1 L1). destruct (collect fields s1) as [s2 cs]. exact IH.
  Qed.
  Lemma reached_legit s0 s : unshared -> reached s0 s -> legit s0 s.
  Proof.
    intros U. induction 1 as [|s fields _ IH]; [intros a; left; reflexivity|]. unfold apply_always_filter.
    pose proof (collect_legit s0 fields U s IH) as L. destruct (collect fields s) as [s' cs]. exact L.
  Qed.
  Lemma view_filters_ok s0 x v : unshared -> view_of x = Ok v -> parses s0 v -> forall addrs s acc, (forall a, In a addrs -> In a (av_filters v)) -> legit s0 s ->
    snd (view_filters parse v addrs s acc) =
      Ok (acc ++ flat_map (fun a => match nth_error s0 a with Some f => match parse (meant v f) with Ok cs => cs | Err _ => [] end | None => [] end) addrs).
  Proof.
    intros U X P. induction addrs as [|a addrs IH]; intros s acc SUB L; cbn [view_filters flat_map]; [rewrite app_nil_r; reflexivity|].
    pose proof (SUB a (or_introl eq_refl)) as I. destruct (P a I) as [f [y [cs [N [F E]]]]].
    destruct (legit_meant s0 s x v a f U L X I N) as [g [G M]].
    assert (FG : exists z, ad_field g = Some z).
    { destruct (ad_field g) as [z|] eqn:FZ; [exists z; reflexivity|]. exfalso. unfold meant at 1 in M. rewrite FZ in M. destruct (meant_field v f y F) as [z Z]. congruence. }
    destruct FG as [z FZ]. rewrite (qualify_meant v s a g z G FZ), M, E, N, E.
    pose proof (qualify_legit s0 s x v a _ _ U L X I (qualify_meant v s a g z G FZ)) as L'.
    rewrite M in L'. rewrite IH; [rewrite <- app_assoc; reflexivity | intros b J; apply SUB; right; exact J | exact L'].
  Qed.
  Lemma collect_ok s0 fields : unshared -> (forall x v, In x fields -> view_of x = Ok v -> parses s0 v) -> forall s, legit s0 s ->
    snd (collect fields s) = asked s0 fields.
  Proof.
    intros U. induction fields as [|x fields IH]; intros P s L; cbn [Resolve_Model.collect asked flat_map]; [reflexivity|].
    assert (P' : forall y v, In y fields -> view_of y = Ok v -> parses s0 v) by (intros y v I; apply P; right; exact I).
    destruct (view_of x) as [v|e] eqn:X; [|apply IH; assumption].
    pose proof (view_filters_legit s0 x v U X (av_filters v) s [] (fun a I => I) L) as L1.
    pose proof (view_filters_ok s0 x v U X (P x v (or_introl eq_refl) X) (av_filters v) s [] (fun a I => I) L) as O.
    destruct (view_filters parse v (av_filters v) s []) as [s1 p]. cbn [fst snd] in *. subst p.
    specialize (IH P' s1 L1). destruct (collect fields s1) as [s2 cs]. cbn [snd] in *. rewrite IH. reflexivity.
  Qed.

  (** *** Duplicates: the first of equal conditions stays where it is *)
  Lemma dedup_seen_snoc seen l c :
    dedup_seen c_eqb seen (l ++ [c]) = dedup_seen c_eqb seen l ++ (if existsb (c_eqb c) seen || existsb (c_eqb c) l then [] else [c]).
  Proof.
    revert seen. induction l as [|d l IH]; intros seen; cbn [app dedup_seen existsb].
    - rewrite orb_false_r. destruct (existsb (c_eqb c) seen); reflexivity.
    - destruct (existsb (c_eqb d) seen) eqn:D.
      + rewrite IH. destruct (c_eqb c d) eqn:E; [|reflexivity]. apply c_eqb_eq in E. subst d. rewrite D. reflexivity.
      + cbn [app]. rewrite IH. cbn [existsb]. f_equal. f_equal. destruct (c_eqb c d), (existsb (c_eqb c) seen), (existsb (c_eqb c) l); reflexivity.
  Qed.
  Lemma existsb_In c l : existsb (c_eqb c) l = true <-> In c l.
  Proof. rewrite existsb_exists. split; [intros [x [I E]]; apply c_eqb_eq in E; subst; exact I | intros I; exists c; split; [exact I | apply c_eqb_eq; reflexivity]]. Qed.
  Theorem C29_dedup : dedup_seen c_eqb [] [] = [] /\
    forall l c, (In c l -> dedup_seen c_eqb [] (l ++ [c]) = dedup_seen c_eqb [] l) /\ (~ In c l -> dedup_seen c_eqb [] (l ++ [c]) = dedup_seen c_eqb [] l ++ [c]).
  Proof.
    split; [reflexivity|]. intros l c. rewrite dedup_seen_snoc. cbn [existsb orb]. destruct (existsb (c_eqb c) l) eqn:E.
    - apply existsb_In in E. split; [intros _; apply app_nil_r | congruence].
    - split; [intros I; apply existsb_In in I; congruence | reflexivity].
  Qed.
  Lemma dedup_In l c : In c (dedup_seen c_eqb [] l) <-> In c l.
  Proof.
    induction l as [|d l IH] using rev_ind; [reflexivity|]. rewrite dedup_seen_snoc. cbn [existsb orb]. rewrite !in_app_iff, IH.
    destruct (existsb (c_eqb d) l) eqn:E; [|reflexivity]. apply existsb_In in E. split; [intros [I|[]]; left; exact I|]. intros [I|[->|[]]]; auto.
  Qed.
  Lemma dedup_NoDup l : NoDup (dedup_seen c_eqb [] l).
  Proof.
    induction l as [|d l IH] using rev_ind; [constructor|]. rewrite dedup_seen_snoc. cbn [existsb orb]. destruct (existsb (c_eqb d) l) eqn:E; [rewrite app_nil_r; exact IH|].
    apply Permutation_NoDup with (l := d :: dedup_seen c_eqb [] l); [apply Permutation_cons_append|]. constructor; [|exact IH].
    rewrite dedup_In. intros I. apply existsb_In in I. congruence.
  Qed.

  (** Whatever was asked before, every condition of every selected view is collected, once *)
  Theorem C29_always_conditions s0 s fields : unshared -> reached s0 s -> (forall x v, In x fields -> view_of x = Ok v -> parses s0 v) ->
    let always := snd (apply fields s) in
    always = dedup_seen c_eqb [] (asked s0 fields) /\ NoDup always /\
    forall c, In c always <-> exists x v a f cs, In x fields /\ view_of x = Ok v /\ In a (av_filters v) /\ nth_error s0 a = Some f /\ parse (meant v f) = Ok cs /\ In c cs.
  Proof.
    intros U RE P. pose proof (collect_ok s0 fields U P s (reached_legit s0 s U RE)) as E. unfold apply_always_filter. destruct (collect fields s) as [s' cs]. cbn [snd] in *. subst cs.
    split; [reflexivity|]. split; [apply dedup_NoDup|]. intros c. rewrite dedup_In. unfold asked. rewrite in_flat_map. split.
    - intros [x [X I]]. destruct (view_of x) as [v|] eqn:V; [|destruct I]. unfold view_conditions in I. apply in_flat_map in I. destruct I as [a [A I]].
      destruct (nth_error s0 a) as [f|] eqn:N; [|destruct I]. destruct (parse (meant v f)) as [cs|] eqn:PF; [|destruct I]. exists x, v, a, f, cs. auto 8.
    - intros [x [v [a [f [cs [X [V [A [N [PF I]]]]]]]]]]. exists x. split; [exact X|]. rewrite V. unfold view_conditions. apply in_flat_map. exists a. split; [exact A|]. rewrite N, PF. exact I.
  Qed.

  (** *** The final where *)
  Fixpoint user_conditions (o : wobj C) : list C :=
    match o with WCond c => [c] | WLogic x => user_conditions x | WGroup cs => flat_map user_conditions cs end.
  Lemma process_conditions : forall o, user_conditions (process_filter o) = user_conditions o.
  Proof.
    fix IH 1. intros [c|o|cs]; [reflexivity | reflexivity|]. cbn [process_filter user_conditions]. induction cs as [|x cs IHc]; [reflexivity|].
    cbn [map flat_map]. rewrite (IH x), IHc. reflexivity.
  Qed.
  (** With conditions given as a list (or none) nothing the user wrote is lost and the view's conditions follow *)
  Theorem C29_final_where w always : (match w with WList _ | WNone => True | WStr t => t = "" | WDict _ => False end) ->
    exists l, init_where w always = Ok (WList l) /\
      flat_map user_conditions l = (match w with WList u => flat_map user_conditions u | _ => [] end) ++ always /\
      (forall c, In c always -> In (WCond c) l).
  Proof.
    intros H. assert (K : forall u, exists l, init_where (WList u) always = Ok (WList l) /\ flat_map user_conditions l = flat_map user_conditions u ++ always /\ forall c, In c always -> In (WCond c) l).
    { intros u. assert (E : forall u, match always, WList u with [], _ => Ok (WList u) | _, WList l => Ok (WList (l ++ map WCond always)) | _, _ => Err AttributeError end = Ok (WList (u ++ map WCond always))).
      { intros v. destruct always; [rewrite app_nil_r|]; reflexivity. }
      exists (map process_filter (u ++ map WCond always)). split; [|split].
      - unfold init_where. destruct u as [|x u]; cbn [falsy]; destruct always; cbn [bind clean_conditional app map]; try rewrite app_nil_r; reflexivity.
      - rewrite map_app, flat_map_app. f_equal.
        + induction u as [|x u IHu]; [reflexivity|]. cbn [map flat_map]. rewrite process_conditions, IHu. reflexivity.
        + clear. induction always as [|c l IHl]; [reflexivity|]. cbn [map flat_map process_filter user_conditions app]. rewrite IHl. reflexivity.
      - intros c I. rewrite map_app, in_app_iff. right. rewrite map_map. apply in_map_iff. exists c. auto. }
    destruct w as [|t|o|u]; [destruct (K []) as [l [E [F G]]]; exists l; split; [exact E | auto]
      | subst t; destruct (K []) as [l [E [F G]]]; exists l; split; [exact E | auto] | destruct H | apply K].
  Qed.
End C29.
Print Assumptions C29_dedup.
Print Assumptions C29_always_conditions.
Print Assumptions C29_final_where.

(** Cases.  Conditions are (field, value) pairs; value "!" cannot be parsed. *)
Definition ex_parse (d : adict string) : res (list (string * string)) :=
  match ad_field d with Some f => if String.eqb (ad_rest d) "!" then Err QueryError else Ok [(f, ad_rest d)] | None => Err KeyError end.
Definition pr_eqb (a b : string * string) : bool := String.eqb (fst a) (fst b) && String.eqb (snd a) (snd b).
Definition ex_view_of (x : string) : res aview :=
  if String.eqb x "orders.id" then Ok (AView "orders" [0; 1]) else if String.eqb x "orders.total" then Ok (AView "orders" [0; 1])
  else if String.eqb x "customers.id" then Ok (AView "customers" [2]) else Err AccessDenied.
Definition ex_store : store string := [ADict (Some "status") "-returned"; ADict (Some "customers.id") ">0"; ADict (Some "id") ">0"].
Example C29_case :
  unshared ex_view_of /\ (forall x v, In x ["orders.id"; "date"; "customers.id"; "orders.total"] -> ex_view_of x = Ok v -> parses string _ ex_parse ex_store v) /\
  snd (apply_always_filter ex_parse ex_view_of pr_eqb ["orders.id"; "date"; "customers.id"; "orders.total"] ex_store) =
    [("orders.status", "-returned"); ("customers.id", ">0")].
Proof.
  split; [|split; [|vm_compute; reflexivity]].
  - intros x y v w a. unfold ex_view_of. intros X Y.
    destruct (String.eqb x "orders.id"); [|destruct (String.eqb x "orders.total"); [|destruct (String.eqb x "customers.id"); [|discriminate]]]; injection X as <-;
    (destruct (String.eqb y "orders.id"); [|destruct (String.eqb y "orders.total"); [|destruct (String.eqb y "customers.id"); [|discriminate]]]; injection Y as <-); simpl; intros V W; try reflexivity; exfalso; lia.
  - intros x v _ X a I. unfold ex_view_of in X.
    destruct (String.eqb x "orders.id"); [|destruct (String.eqb x "orders.total"); [|destruct (String.eqb x "customers.id"); [|discriminate]]]; injection X as <-; simpl in I;
    repeat match goal with H : _ \/ _ |- _ => destruct H end; subst; try tauto; eexists; eexists; eexists; repeat split; reflexivity.
Qed.
(** One filter of a view that cannot be parsed removes the view's other filters without an error *)
Theorem C29_unparsed_filter_drops_the_rest_refuted :
  exists (s0 : store string) v a f, ex_view_of "orders.id" = Ok v /\ In a (av_filters v) /\ nth_error s0 a = Some f /\ ex_parse (meant _ v f) = Ok [("orders.status", "-returned")] /\
    snd (apply_always_filter ex_parse ex_view_of pr_eqb ["orders.id"] s0) = [].
Proof.
  exists [ADict (Some "status") "-returned"; ADict (Some "id") "!"; ADict (Some "id") ">0"], (AView "orders" [0; 1]), 0, (ADict (Some "status") "-returned").
  split; [reflexivity|]. split; [left; reflexivity|]. split; [reflexivity|]. split; vm_compute; reflexivity.
Qed.
(** A view and its join_as copy share their dicts: after a query on the original, the copy's condition is on
    the original's column *)
Definition shared_view_of (x : string) : res aview :=
  if String.eqb x "accounts.id" then Ok (AView "accounts" [0]) else Ok (AView "parent_account" [0]).
Theorem C29_join_as_history_refuted :
  let s0 := [ADict (Some "deleted") "False"] in
  let ask x s := apply_always_filter ex_parse shared_view_of pr_eqb [x] s in
  snd (ask "parent_account.id" s0) = [("parent_account.deleted", "False")] /\
  snd (ask "parent_account.id" (fst (ask "accounts.id" s0))) = [("accounts.deleted", "False")].
Proof. split; vm_compute; reflexivity. Qed.
(** A where given as text or as one dict cannot be combined with an always_filter *)
Theorem C29_text_where_fails_refuted : exists (w : wclause (string * string)) always, init_where w always = Err AttributeError /\ init_where w [] = Ok w.
Proof. exists (WStr "orders.total > 5"), [("orders.status", "-returned")]. split; reflexivity. Qed.
(** conditional_filter_logic is unwrapped in a list but not when the where is the dict itself *)
Theorem C29_dict_where_keeps_logic_refuted : exists o : wobj (string * string), init_where (WDict o) [] = Ok (WList [o]) /\ init_where (WList [o]) [] <> Ok (WList [o]).
Proof. exists (WLogic (WCond ("a", "b"))). split; [reflexivity | discriminate]. Qed.
Print Assumptions C29_unparsed_filter_drops_the_rest_refuted.
Print Assumptions C29_join_as_history_refuted.
Print Assumptions C29_text_where_fails_refuted.
Print Assumptions C29_dict_where_keeps_logic_refuted.
