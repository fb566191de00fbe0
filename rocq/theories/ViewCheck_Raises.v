(** Lemmas: when the parts of the check of a view raise. *)
From Coq Require Import List String ZArith Bool.
From Verif Require Import PyBase PyStr PyRefs PyReplace PyList Names_Model Names_Props FieldCheck_Model FieldCheck_Spec FieldCheck_Proofs ViewCheck_Model ViewCheck_Spec ViewCheck_Proofs.
Import ListNotations.
Local Open Scope string_scope.
Local Open Scope list_scope.

Definition fails {A} (r : res A) : Prop := exists e, r = Err e.
Lemma fails_ok {A} (x : A) : fails (Ok x) <-> False.
Proof. split; [intros [e H]; discriminate H|intros []]. Qed.
Lemma fails_err {A} e : fails (Err e : res A) <-> True.
Proof. split; [auto|]. intros _. now exists e. Qed.
Lemma fails_bind {A B} (r : res A) (k : A -> res B) : fails (bind r k) <-> fails r \/ exists x, r = Ok x /\ fails (k x).
Proof.
  destruct r as [x|e]; cbn [bind].
  - rewrite fails_ok. split; [intros H; right; eauto|]. intros [[]|(y & X & H)]. injection X as <-. exact H.
  - rewrite !fails_err. tauto.
Qed.
Lemma fails_concat {A B} (f : A -> res (list B)) l : fails (concatM f l) <-> exists x, In x l /\ fails (f x).
Proof.
  split.
  - intros [e H]. apply concatM_err in H. destruct H as (x & I & H). exists x. split; [exact I|now exists e].
  - intros (x & I & [e H]). destruct (concatM f l) as [ys|e'] eqn:C; [|now exists e']. destruct (concatM_ok_all _ _ _ C x I) as [zs Z]. congruence.
Qed.
Lemma ok_or_fails {A} (r : res A) : (exists x, r = Ok x) \/ fails r.
Proof. destruct r as [x|e]; [left; now exists x|right; now exists e]. Qed.
Section Listed.
  Context {R : Type}.
  Variable k : string.
  Variable top : R.
  Variable item : yv -> R.
  Variable f : ydict -> res (list R).
  Lemma listing_fails d : fails (listing k top item f d) <-> exists s, element d k (YDict s) /\ fails (f s).
  Proof.
    unfold listing, element, get. destruct (assoc k d) as [[| | | | |l|]|].
    6:{ rewrite fails_concat. split.
        - intros (v & I & H). cbv beta in H. destruct v as [| | | | | |s]; try (destruct H as [e H]; discriminate H). exists s. split; [exists l; auto|exact H].
        - intros (s & (l' & X & I) & H). injection X as <-. exists (YDict s). auto. }
    all: rewrite fails_ok; split; [intros []|]; intros (s' & (l' & X & _) & _); discriminate X.
  Qed.
End Listed.

Section Parts.
  Variable E : venv.
  Variable n : string.
  Variable fs : list vfield.
  Lemma table_fails d : fails (table_errors E d) <-> table_raises E d.
  Proof.
    unfold table_errors, table_raises, table, bad, value, lacks, has, get. destruct (assoc "sql_table_name" d) as [v|] eqn:T, (assoc "derived_table" d) as [w|] eqn:D; cbn [andb orb negb].
    - rewrite fails_bind. split.
      + intros [[e H]|(x & _ & H)]; [|destruct H as [? H]; discriminate H]. split; [left; split; discriminate|]. exists v, e. split; [reflexivity|]. destruct (ve_table E v) as [[]|e']; [discriminate H|].
        destruct e'; try discriminate H; injection H as <-; split; try reflexivity; discriminate.
      + intros (_ & v' & e & X & H & N). injection X as <-. left. exists e. rewrite H. destruct e; congruence.
    - destruct (negb (is_str v)) eqn:S.
      + rewrite fails_bind. rewrite negb_true_iff in S. split.
        * intros [[e H]|(x & _ & H)]; [|destruct H as [? H]; discriminate H]. split; [right; exists v; split; [reflexivity|apply str_iff; exact S]|]. exists v, e. split; [reflexivity|]. destruct (ve_table E v) as [[]|e']; [discriminate H|].
          destruct e'; try discriminate H; injection H as <-; split; try reflexivity; discriminate.
        * intros (_ & v' & e & X & H & N). injection X as <-. left. exists e. rewrite H. destruct e; congruence.
      + cbn [bind]. rewrite fails_ok. rewrite negb_false_iff in S. split; [intros []|]. intros [[[_ X]|(v' & X & Y)] _]; [congruence|]. injection X as <-. apply str_iff in Y. congruence.
    - cbn [bind]. rewrite fails_ok. split; [intros []|]. intros (_ & v' & e & X & _). discriminate X.
    - cbn [bind]. rewrite fails_ok. split; [intros []|]. intros (_ & v' & e & X & _). discriminate X.
  Qed.
  Lemma date_fails d : fails (date_errors E n d) <-> date_raises E n d.
  Proof.
    unfold date_errors, date_raises, is_text, get. destruct (assoc "default_date" d) as [v|].
    2:{ rewrite fails_ok. split; [intros []|]. intros (s & e & X & _). discriminate X. }
    destruct v as [| | | |s| |]. 1-4,6-7: rewrite fails_ok; split; [intros []|]; intros (s' & e & X & _); discriminate X.
    destruct (String.eqb s "") eqn:Z.
    { apply String.eqb_eq in Z. subst s. rewrite fails_ok. split; [intros []|]. intros (s' & e & X & N & _). congruence. }
    apply String.eqb_neq in Z. change (dotted n s) with (in_view n s). split.
    - intros [e H]. exists s. destruct (ve_by_name E (in_view n s)) as [i|e'] eqn:B.
      + destruct (ve_joinable E n) as [l|e''] eqn:J; [discriminate H|]. exists e''. split; [reflexivity|]. split; [exact Z|]. split; [|right; split; [now exists i|reflexivity]].
        destruct e''; try discriminate H; split; discriminate.
      + exists e'. split; [reflexivity|]. split; [exact Z|]. split; [|now left]. destruct e'; try discriminate H; split; discriminate.
    - intros (s' & e & X & _ & [A B] & H). injection X as <-. destruct H as [H|[[i H] J]]; rewrite H; try rewrite J; exists e; destruct e; congruence.
  Qed.
  Lemma sets_fails d : fails (sets_errors E n d) <-> sets_raise d.
  Proof.
    change (sets_errors E n d) with (listing "sets" VSets VSetItem (set_errors E n) d). rewrite listing_fails. unfold sets_raise.
    assert (K : forall s, fails (set_errors E n s) <-> complete s /\ value s "name" (fun v => ~ Str v)).
    { intros s. unfold set_errors, complete, value, lacks, has, get. destruct (assoc "name" s) as [v|] eqn:N, (assoc "fields" s) as [w|] eqn:F; cbn [negb orb].
      2-4: rewrite fails_ok; split; [intros []|intros [[X Y] _]; congruence].
      destruct v as [| | | |m| |]. 5:{ rewrite fails_ok. split; [intros []|]. intros (_ & v & X & Y). injection X as <-. apply Y. now exists m. }
      all: rewrite fails_err; split; [intros _|auto]; split; [split; discriminate|]; eexists; split; [reflexivity|]; intros [? Z]; discriminate Z. }
    split; intros (s & I & H); exists s; split; try exact I; apply K in H || apply K; exact H.
  Qed.
  Lemma ask_fails {A} q (x y : A) : fails (match ve_get_field E q with Ok _ => Ok x | Err AccessDenied => Ok y | Err e => Err e end) <-> exists e, odd E q e.
  Proof.
    unfold odd. destruct (ve_get_field E q) as [u|e].
    - rewrite fails_ok. split; [intros []|]. intros (e & X & _). discriminate X.
    - destruct e. 3:{ rewrite fails_ok. split; [intros []|]. intros (e & X & Y). congruence. }
      all: rewrite fails_err; split; [intros _; eexists; split; [reflexivity|discriminate]|auto].
  Qed.
  Lemma always_fails d : fails (always_errors E n d) <-> always_raises E n d.
  Proof.
    change (always_errors E n d) with (listing "always_filter" VAlways VAlwaysItem (always_error E n) d). rewrite listing_fails. unfold always_raises.
    assert (K : forall f, fails (always_error E n f) <-> value f "field" (fun v => ~ Str v) \/ exists s e, is_text f "field" s /\ odd E (in_view n s) e).
    { intros f. unfold always_error. rewrite fails_bind. unfold value, is_text, get. destruct (assoc "field" f) as [v|].
      2:{ rewrite fails_ok. split; [intros [[]|(x & _ & H)]; destruct H as [? H]; discriminate H|]. intros [(v & X & _)|(s & e & X & _)]; discriminate X. }
      destruct v as [| | | |s| |].
      5:{ change (dotted n s) with (in_view n s). rewrite ask_fails. split.
          - intros [[e H]|(x & _ & H)]; [right; eauto|destruct H as [? H]; discriminate H].
          - intros [(v & X & Y)|(s' & e & X & H)]; [|injection X as <-; left; eauto]. injection X as <-. exfalso. apply Y. now exists s. }
      all: rewrite fails_err; split; [intros _; left; eexists; split; [reflexivity|]; intros [? Z]; discriminate Z|auto]. }
    split; intros (s & I & H); exists s; split; try exact I; apply K in H || apply K; exact H.
  Qed.
  Lemma access_fails d : fails (access_errors E d) <-> access_raises E d.
  Proof.
    change (access_errors E d) with (listing "access_filters" VAccess VAccessItem (access_error E) d). rewrite listing_fails. unfold access_raises.
    assert (K : forall f, fails (access_error E f) <-> value f "field" (fun v => ~ Str v) \/ exists s e, is_text f "field" s /\ odd E s e).
    { intros f. unfold access_error. rewrite fails_bind. unfold value, is_text, get. destruct (assoc "field" f) as [v|].
      2:{ rewrite fails_ok. split; [intros [[]|(x & _ & H)]; destruct H as [? H]; discriminate H|]. intros [(v & X & _)|(s & e & X & _)]; discriminate X. }
      destruct v as [| | | |s| |].
      5:{ rewrite ask_fails. split.
          - intros [[e H]|(x & _ & H)]; [right; eauto|destruct H as [? H]; discriminate H].
          - intros [(v & X & Y)|(s' & e & X & H)]; [|injection X as <-; left; eauto]. injection X as <-. exfalso. apply Y. now exists s. }
      all: rewrite fails_err; split; [intros _; left; eexists; split; [reflexivity|]; intros [? Z]; discriminate Z|auto]. }
    split; intros (s & I & H); exists s; split; try exact I; apply K in H || apply K; exact H.
  Qed.
  Lemma event_fails d : fails (event_errors E n d) <-> event_raises E n d.
  Proof.
    unfold event_errors, event_raises, is_text, lacks, get. destruct (assoc "event_dimension" d) as [v|].
    2:{ rewrite fails_ok. split; [intros []|]. intros (s & X & _). discriminate X. }
    destruct v as [| | | |s| |]. 1-4,6-7: rewrite fails_ok; split; [intros []|]; intros (s' & X & _); discriminate X.
    assert (L : forall q, fails (if String.eqb q "" then Ok [] else match ve_get_field E q with Ok _ => Ok [] | Err AccessDenied => Ok [VEvent] | Err e => Err e end) <-> q <> "" /\ exists e, odd E q e).
    { intros q. destruct (String.eqb q "") eqn:Q.
      - apply String.eqb_eq in Q. rewrite fails_ok. split; [intros []|]. intros [X _]. contradiction.
      - apply String.eqb_neq in Q. rewrite ask_fails. tauto. }
    unfold event_dimension, get. destruct (contains "." s) eqn:C.
    - destruct (assoc "default_date" d) as [v|] eqn:D.
      + cbn [bind]. rewrite L. split.
        * intros [N (e & H)]. exists s. split; [reflexivity|]. right. right. destruct v as [| | | |t| |].
          5:{ left. split; [exact C|]. exists t, e. auto. }
          all: right; split; [exact C|]; eexists; exists e; split; [reflexivity|]; split; [intros [? Z]; discriminate Z|]; auto.
        * intros (s' & X & H). injection X as <-. destruct H as [[X _]|[[_ X]|[(_ & t & e & X & N & H)|(_ & w & e & X & S & N & H)]]]; try congruence.
          -- injection X as ->. split; [exact N|]. now exists e.
          -- injection X as <-. destruct v as [| | | |t| |]; try (split; [exact N|now exists e]). exfalso. apply S. now exists t.
      + cbn [bind]. rewrite fails_err. split; [intros _; exists s; auto|auto].
    - cbn [bind]. rewrite L. split.
      + intros [_ H]. exists s. auto.
      + intros (s' & X & H). injection X as <-. destruct H as [[_ H]|[[X _]|[[X _]|[X _]]]]; try congruence. split; [|exact H]. destruct n; discriminate.
  Qed.
  Lemma fields_fails : fails (fields_errors fs) <-> fields_raise fs.
  Proof.
    unfold fields_errors, fields_raise. rewrite fails_bind, fails_concat. split.
    - intros [(f & I & H)|(x & _ & H)]; [|destruct H as [? H]; discriminate H]. rewrite fails_bind in H. destruct H as [[e H]|(x & _ & H)]; [eauto|destruct H as [? H]; discriminate H].
    - intros (f & e & I & H). left. exists f. split; [exact I|]. rewrite H. now exists e.
  Qed.
  (** *** Identifiers *)
  Lemma concat_first {A B} (f : A -> res (list B)) l e : concatM f l = Err e <-> exists l1 x l2, l = l1 ++ x :: l2 /\ f x = Err e /\ forall y, In y l1 -> exists ys, f y = Ok ys.
  Proof.
    induction l as [|a l IH]; cbn [concatM].
    - split; [discriminate|]. intros (l1 & x & l2 & X & _). destruct l1; discriminate X.
    - destruct (f a) as [ys|e'] eqn:F; cbn [bind].
      + split.
        * intros H. destruct (concatM f l) as [zs|e''] eqn:C; [discriminate H|]. cbn [bind] in H. injection H as ->. destruct (proj1 IH eq_refl) as (l1 & x & l2 & -> & X & Y).
          exists (a :: l1), x, l2. split; [reflexivity|]. split; [exact X|]. intros y [<-|I]; [now exists ys|auto].
        * intros (l1 & x & l2 & Q & X & Y). destruct l1 as [|b l1]; cbn [app] in Q; injection Q as -> ->; [congruence|].
          rewrite (proj2 IH); [reflexivity|]. exists l1, x, l2. split; [reflexivity|]. split; [exact X|]. intros y I. apply Y. now right.
      + split.
        * intros H. injection H as ->. exists [], a, l. split; [reflexivity|]. split; [exact F|]. intros y [].
        * intros (l1 & x & l2 & Q & X & Y). destruct l1 as [|b l1]; cbn [app] in Q; injection Q as -> ->; [congruence|]. destruct (Y b (or_introl eq_refl)) as [ys Z]. congruence.
  Qed.
  Lemma id_fails_iff i e : well_shaped (YDict i) -> (id_errors E n i = Err e <-> id_fails E n i e).
  Proof.
    rewrite well_shaped_dict. intros (N & T & G & J). unfold id_errors, id_fails, get, is_text, lacks in *. destruct (assoc "name" i) as [nm|]; [|contradiction].
    destruct (is_str nm) eqn:SN.
    2:{ split; [destruct nm; discriminate|]. intros (m & t & X & _). injection X as ->. discriminate SN. }
    destruct nm as [| | | |m| |]; try discriminate SN. destruct (assoc "type" i) as [ty|]; [|contradiction]. destruct (is_str ty) eqn:ST.
    2:{ split; [destruct ty; discriminate|]. intros (m' & t & _ & X & _). injection X as ->. discriminate ST. }
    destruct ty as [| | | |t| |]; try discriminate ST. destruct (mem t identifier_options) eqn:M; cbn [negb].
    2:{ split; [discriminate|]. intros (m' & t' & _ & X & _ & H). injection X as <-. apply mem_false in M. exfalso. apply M. cbn [identifier_options In]. destruct H as [[-> _]|[[[->| ->] _]|[[->| ->] _]]]; auto. }
    destruct (String.eqb t "join") eqn:TJ.
    - apply String.eqb_eq in TJ. subst t. destruct (J eq_refl) as (_ & _ & R). unfold custom_errors, get. destruct (assoc "reference" i) as [rf|]; [|contradiction]. destruct (is_str rf) eqn:SR.
      2:{ split; [destruct rf; discriminate|]. intros (m' & t & _ & X & _ & [[_ (v & Y & _)]|[[[Z|Z] _]|[[Z|Z] _]]]); try (injection X as <-; discriminate Z). injection Y as ->. discriminate SR. }
      destruct rf as [| | | |v| |]; try discriminate SR. destruct (ve_views E v) as [u|e'] eqn:V.
      + split; [discriminate|]. intros (m' & t & _ & X & _ & [[_ (v' & Y & Q)]|[[[Z|Z] _]|[[Z|Z] _]]]); try (injection X as <-; discriminate Z). injection Y as <-. congruence.
      + split.
        * intros H. destruct e'; try discriminate H; cbn [bind] in H; injection H as <-; exists m, "join"; split; try reflexivity; split; try reflexivity; split; try discriminate; left; split; try reflexivity; exists v; auto.
        * intros (m' & t & _ & X & K & [[_ (v' & Y & Q)]|[[[Z|Z] _]|[[Z|Z] _]]]); try (injection X as <-; discriminate Z). injection Y as <-. assert (e' = e) by congruence. subst e'. destruct e; try congruence; reflexivity.
    - apply String.eqb_neq in TJ. assert (TT : t = "primary" \/ t = "foreign") by (apply mem_In in M; destruct M as [<-|[<-|[<-|[]]]]; auto; contradiction). clear M.
      assert (B : forall (r : res (list idrule)) (k : list idrule -> list idrule), bind r (fun b => Ok (k b)) = Err e <-> r = Err e). { intros [x|x] k; cbn [bind]; split; congruence. }
      match goal with |- bind ?r (fun b => Ok (@?k b)) = _ <-> _ => rewrite (B r k) end. clear B. unfold key_errors, get. destruct (assoc "sql" i) as [sq|].
      + destruct (is_str sq) eqn:SS.
        2:{ split; [destruct sq; discriminate|]. intros (m' & t' & _ & X & _ & [[Z _]|[[_ [Z _]]|[_ (s & qs & q & qs' & Y & _)]]]); [injection X as <-; contradiction|discriminate Z|]. injection Y as ->. discriminate SS. }
        destruct sq as [| | | |s| |]; try discriminate SS. destruct (contains "${" s) eqn:C; cbn [negb].
        2:{ split; [discriminate|]. intros (m' & t' & _ & X & _ & [[Z _]|[[_ [Z _]]|[_ (s' & qs & q & qs' & Y & Q & _)]]]); [injection X as <-; contradiction|discriminate Z|]. injection Y as <-. congruence. }
        assert (F : forall q (u : idrule), (exists ys, (if String.eqb q "TABLE" then Ok [] else let '(_, v, c) := field_name_parts q in match ve_get_field E ((match v with Some v => v | None => n end) ++ "." ++ c)%string with Ok _ => Ok [] | Err AccessDenied => Ok [u] | Err e => Err e end) = Ok ys)
                          <-> q = "TABLE" \/ forall e', ~ odd E (looked_up n q) e').
        { intros q u. destruct (String.eqb q "TABLE") eqn:Q.
          - apply String.eqb_eq in Q. split; [auto|]. intros _. eexists. reflexivity.
          - apply String.eqb_neq in Q. unfold looked_up, odd. destruct (field_name_parts q) as [[a v] c]. destruct (ve_get_field E ((match v with Some v => v | None => n end) ++ "." ++ c)%string) as [w|x].
            + split; [intros _; right; intros e' [X _]; discriminate X|]. intros _. eexists. reflexivity.
            + split.
              * intros [ys H]. right. intros e' [X Y]. injection X as <-. destruct x; congruence.
              * intros [H|H]; [contradiction|]. destruct x; try (exfalso; eapply H; split; [reflexivity|discriminate]). eexists. reflexivity. }
        rewrite concat_first. split.
        * intros (l1 & q & l2 & Q & X & Y). exists m, t. split; [reflexivity|]. split; [reflexivity|]. destruct (String.eqb q "TABLE") eqn:QT; [discriminate X|]. apply String.eqb_neq in QT.
          assert (LU : ve_get_field E (looked_up n q) = Err e /\ e <> AccessDenied).
          { unfold looked_up. destruct (field_name_parts q) as [[a v] c]. destruct (ve_get_field E ((match v with Some v => v | None => n end) ++ "." ++ c)%string) as [w|x]; [discriminate X|].
            destruct x; try discriminate X; injection X as <-; split; try reflexivity; discriminate. }
          split; [apply LU|]. right. right. split; [exact TT|]. exists s, l1, q, l2. split; [reflexivity|]. split; [exact C|]. split; [exact Q|]. split; [exact QT|]. split; [apply LU|].
          intros p I. apply (F p (ISqlRef p)). apply Y. exact I.
        * intros (m' & t' & _ & X & K & [[Z _]|[[_ [Z _]]|[_ (s' & qs & q & qs' & Y & _ & Q & NT & LU & H)]]]); [injection X as <-; contradiction|discriminate Z|]. injection Y as <-.
          exists qs, q, qs'. split; [exact Q|]. split; [|intros y I; apply (F y (ISqlRef y)); auto]. apply String.eqb_neq in NT. rewrite NT. unfold looked_up in LU. destruct (field_name_parts q) as [[a v] c]. rewrite LU. destruct e; congruence.
      + destruct (assoc "identifiers" i) as [ps|].
        * split; [destruct ps; discriminate|]. intros (m' & t' & _ & X & _ & [[Z _]|[[_ [_ [Z _]]]|[_ (s' & qs & q & qs' & Y & _)]]]); [injection X as <-; contradiction|discriminate Z|discriminate Y].
        * destruct (ve_get_field E (n ++ "." ++ m)%string) as [u|e'] eqn:V.
          -- split; [discriminate|]. intros (m' & t' & X' & X & _ & [[Z _]|[(_ & _ & _ & Z)|[_ (s' & qs & q & qs' & Y & _)]]]); [injection X as <-; contradiction| |discriminate Y]. injection X' as <-. congruence.
          -- split.
             ++ intros H. exists m, t. split; [reflexivity|]. split; [reflexivity|]. assert (K : e' = e /\ e <> AccessDenied) by (destruct e'; try discriminate H; injection H as <-; split; try reflexivity; discriminate).
                destruct K as [-> K]. split; [exact K|]. right. left. auto.
             ++ intros (m' & t' & X' & X & K & [[Z _]|[(_ & _ & _ & Z)|[_ (s' & qs & q & qs' & Y & _)]]]); [injection X as <-; contradiction| |discriminate Y]. injection X' as <-. assert (e' = e) by congruence. subst e'. destruct e; congruence.
  Qed.
  Lemma hashable_no v : hashable v = false <-> no_key v.
  Proof.
    unfold no_key. destruct v; cbn [hashable]; split; try discriminate; try reflexivity.
    6: intros _; left; eexists; reflexivity. 6: intros _; right; eexists; reflexivity.
    all: intros [[? Z]|[? Z]]; discriminate Z.
  Qed.
  Lemma name_fails_iff all i : well_shaped (YDict i) -> Forall well_shaped all ->
    (hashable (id_name (YDict i)) = false \/ fails (parts_errors all i) <-> name_fails all i).
  Proof.
    intros SV WA. unfold name_fails. rewrite hashable_no. pose proof (shaped_named _ SV) as NM. rewrite well_shaped_dict in SV. destruct SV as (_ & _ & G & _). rewrite Forall_forall in WA.
    assert (P : no_key (id_name (YDict i)) <-> exists m, assoc "name" i = Some m /\ no_key m).
    { destruct NM as (i' & X & Y). injection X as <-. split; [eauto|]. intros (m & X & Z). congruence. }
    rewrite P. clear P.
    assert (Q : fails (parts_errors all i) <-> exists parts j, assoc "identifiers" i = Some (YList parts) /\ In j parts /\ ((exists p, named j p /\ no_key p) \/ exists w m, In w all /\ named w m /\ no_key m)).
    { unfold parts_errors, get. destruct G as [G|(parts & G & GP)].
      { unfold lacks in G. rewrite G, fails_ok. split; [intros []|]. intros (parts & j & X & _). discriminate X. }
      rewrite G, fails_concat. rewrite Forall_forall in GP. split.
      - intros (j & I & H). exists parts, j. split; [reflexivity|]. split; [exact I|]. destruct (forallb (fun v => hashable (id_name v)) all) eqn:FA; cbn [andb] in H.
        + left. exists (id_name j). split; [apply part_named; auto|]. apply hashable_no. destruct (hashable (id_name j)); [destruct H as [? H]; discriminate H|reflexivity].
        + right. assert (X : exists w, In w all /\ hashable (id_name w) = false).
          { clear -FA. induction all as [|a r IH]; cbn [forallb] in FA; [discriminate FA|]. destruct (hashable (id_name a)) eqn:A; [destruct (IH FA) as (w & I & H); exists w; split; [now right|exact H]|exists a; split; [now left|exact A]]. }
          destruct X as (w & I' & X). exists w, (id_name w). split; [exact I'|]. split; [apply shaped_named; auto|]. apply hashable_no. exact X.
      - intros (parts' & j & X & I & H). injection X as <-. exists j. split; [exact I|].
        assert (Z : forallb (fun v => hashable (id_name v)) all && hashable (id_name j) = false).
        { destruct H as [(p & X & Y)|(w & m & I' & X & Y)]; apply named_name in X; apply hashable_no in Y; subst; [rewrite Y; apply andb_false_r|].
          destruct (forallb (fun v => hashable (id_name v)) all) eqn:FA; [|reflexivity]. rewrite forallb_forall in FA. rewrite (FA w I') in Y. discriminate Y. }
        rewrite Z. apply fails_err. exact Logic.I. }
    rewrite Q. reflexivity.
  Qed.
  Lemma loop_fails all l : Forall well_shaped all -> Forall well_shaped l -> forall used,
    (fails (ids_loop E n all used l) <-> exists l1 i l2, l = l1 ++ YDict i :: l2 /\ (forall j, In (YDict j) l1 -> ~ id_fails E n j QueryError) /\
       ((exists e, e <> QueryError /\ id_fails E n i e) \/ ~ id_fails E n i QueryError /\ name_fails all i)).
  Proof.
    intros WA W. induction W as [|v l SV W IH]; intros used; cbn [ids_loop].
    { rewrite fails_ok. split; [intros []|]. intros (l1 & i & l2 & X & _). destruct l1; discriminate X. }
    destruct SV as (i & -> & SV). assert (SV' : well_shaped (YDict i)) by (exists i; auto). clear SV. rename SV' into SV. cbn [id_dict].
    pose proof (id_fails_iff i) as IF. pose proof (name_fails_iff all i SV WA) as NF. destruct (id_errors E n i) as [es|e].
    - assert (NQ : forall e, ~ id_fails E n i e) by (intros e H; apply IF in H; [discriminate H|exact SV]). destruct (hashable (id_name (YDict i))) eqn:Hh.
      + rewrite fails_bind. split.
        * intros [H|(ps & P & H)].
          -- exists [], i, l. split; [reflexivity|]. split; [intros j []|]. right. split; [apply NQ|]. apply NF. right. exact H.
          -- rewrite fails_bind in H. destruct H as [H|(rest & _ & H)]; [|destruct H as [? H]; discriminate H]. apply IH in H. destruct H as (l1 & j & l2 & -> & A & B).
             exists (YDict i :: l1), j, l2. split; [reflexivity|]. split; [|exact B]. intros k [X|I]; [injection X as <-; apply NQ|auto].
        * intros (l1 & j & l2 & X & A & B). destruct l1 as [|c l1]; cbn [app] in X.
          -- injection X as <- <-. destruct B as [(e & _ & B)|[_ B]]; [exfalso; exact (NQ e B)|]. apply NF in B. destruct B as [B|B]; [congruence|]. left. exact B.
          -- injection X as <- ->. destruct (ok_or_fails (parts_errors all i)) as [[ps P]|P]; [|left; exact P]. right. exists ps. split; [exact P|]. rewrite fails_bind. left. apply IH. exists l1, j, l2. split; [reflexivity|].
             split; [|exact B]. intros k I. apply A. now right.
      + rewrite fails_err. split; [intros _|auto]. exists [], i, l. split; [reflexivity|]. split; [intros j []|]. right. split; [apply NQ|]. apply NF. left. reflexivity.
    - assert (Y : id_fails E n i e) by (apply IF; [exact SV|reflexivity]). assert (U : forall e', id_fails E n i e' -> e = e') by (intros e' H; apply IF in H; [congruence|exact SV]).
      assert (C : e = QueryError \/ e <> QueryError) by (destruct e; auto; right; discriminate). destruct C as [->|C].
      + rewrite fails_ok. split; [intros []|]. intros (l1 & j & l2 & X & A & B). destruct l1 as [|c l1]; cbn [app] in X.
        * injection X as <- <-. destruct B as [(e & B & C)|[B _]]; [|contradiction]. apply B. symmetry. auto.
        * injection X as <- ->. apply (A i); [now left|exact Y].
      + assert (R : match e with QueryError => Ok [VIdQuery] | _ => Err e end = (Err e : res (list vrule))) by (destruct e; congruence). destruct e; try contradiction.
        all: rewrite fails_err; split; [intros _|auto]; exists [], i, l; split; [reflexivity|]; split; [intros j []|]; left; eexists; split; [exact C|exact Y].
  Qed.
  Lemma ids_fails d : fails (ids_errors E n d) <-> ids_raise E n d.
  Proof.
    unfold ids_errors, identifiers, ids_raise, get. destruct (assoc "identifiers" d) as [v|].
    2:{ cbn [ids_loop]. rewrite fails_ok. split; [intros []|]. intros (l & i & l' & X & _). discriminate X. }
    destruct (is_list v) eqn:L.
    2:{ split; [destruct v; try discriminate L; intros [e H]; discriminate H|]. intros (l & i & l' & X & _). injection X as ->. discriminate L. }
    destruct v as [| | | | |l|]; try discriminate L. destruct (first_some id_fault l) as [f|] eqn:F.
    - rewrite fails_ok. split; [intros []|]. intros (l1 & i & l2 & X & W & _). injection X as ->. apply first_some_some in F. destruct F as (l & x & l' & Q & _ & X).
      rewrite Q in W. apply Forall_app in W. destruct W as [_ W]. inversion W as [|? ? W1 _]. subst. apply fault_none in W1. congruence.
    - apply first_some_none in F. assert (W : Forall well_shaped l) by (revert F; apply Forall_impl; intros a; apply fault_none). rewrite (loop_fails l l W W []). split.
      + intros (l1 & i & l2 & -> & H). exists l1, i, l2. auto.
      + intros (l1 & i & l2 & X & _ & H). injection X as ->. exists l1, i, l2. auto.
  Qed.
  (** What is reported when an identifier refers to something ambiguous *)
  Lemma loop_query all l1 i l2 : forall used out, (forall j, In (YDict j) l1 -> well_shaped (YDict j) /\ ~ id_fails E n j QueryError) -> Forall well_shaped l1 -> well_shaped (YDict i) -> id_fails E n i QueryError ->
    ids_loop E n all used (l1 ++ YDict i :: l2) = Ok out -> exists out1, ids_loop E n all used l1 = Ok out1 /\ out = out1 ++ [VIdQuery] /\ ~ In VIdQuery out1.
  Proof.
    induction l1 as [|v l1 IH]; intros used out A W SV Q H; cbn [app ids_loop] in H |- *.
    - cbn [id_dict] in H. apply id_fails_iff in Q; [|exact SV]. rewrite Q in H. apply ok_inj in H. subst out. exists []. split; [reflexivity|]. split; [reflexivity|]. intros [].
    - inversion W as [|? ? WV W']. subst. destruct WV as (j & -> & WV). cbn [id_dict] in H |- *. destruct (A j (or_introl eq_refl)) as [SJ NJ]. destruct (id_errors E n j) as [es|e] eqn:EJ.
      2:{ destruct e; try discriminate H. exfalso. apply NJ. apply id_fails_iff; assumption. }
      destruct (hashable (id_name (YDict j))); [|discriminate H]. apply bind_ok in H. destruct H as [ps [P H]]. apply bind_ok in H. destruct H as [rest [L H]]. apply ok_inj in H. subst out.
      destruct (IH (used ++ [id_name (YDict j)]) rest) as (out1 & L1 & -> & N1); auto. { intros k I. apply A. now right. }
      rewrite P, L1. cbn [bind]. eexists. split; [reflexivity|]. rewrite <- !app_assoc. split; [reflexivity|]. rewrite !in_app_iff, in_map_iff, in_say. intros [(x & X & _)|[[_ X]|[X|X]]]; try discriminate X; [|contradiction].
      unfold parts_errors in P. destruct (get "identifiers" j) as [[| | | | |parts|]|]; try (apply ok_inj in P; subst ps; destruct X). rewrite (concatM_in _ _ _ _ P) in X. destruct X as (p & ys & _ & Y & X).
      destruct (forallb (fun v => hashable (id_name v)) all && hashable (id_name p)); [|discriminate Y]. apply ok_inj in Y. subst ys. apply in_say in X. destruct X as [_ X]. discriminate X.
  Qed.
  Lemma loop_clean all l : (forall j, In (YDict j) l -> ~ id_fails E n j QueryError) -> Forall well_shaped l -> forall used out, ids_loop E n all used l = Ok out -> ~ In VIdQuery out.
  Proof.
    intros A W. induction W as [|v l SV W IH]; intros used out H; cbn [ids_loop] in H.
    - apply ok_inj in H. subst out. intros [].
    - destruct SV as (i & -> & SV). assert (SV' : well_shaped (YDict i)) by (exists i; auto). cbn [id_dict] in H. destruct (id_errors E n i) as [es|e] eqn:EI.
      2:{ destruct e; try discriminate H. exfalso. apply (A i); [now left|]. apply id_fails_iff; assumption. }
      destruct (hashable (id_name (YDict i))); [|discriminate H]. apply bind_ok in H. destruct H as [ps [P H]]. apply bind_ok in H. destruct H as [rest [L H]]. apply ok_inj in H. subst out.
      rewrite !in_app_iff, in_map_iff, in_say. intros [(x & X & _)|[[_ X]|[X|X]]]; try discriminate X.
      + unfold parts_errors in P. destruct (get "identifiers" i) as [[| | | | |parts|]|]; try (apply ok_inj in P; subst ps; destruct X). rewrite (concatM_in _ _ _ _ P) in X. destruct X as (p & ys & _ & Y & X).
        destruct (forallb (fun v => hashable (id_name v)) all && hashable (id_name p)); [|discriminate Y]. apply ok_inj in Y. subst ys. apply in_say in X. destruct X as [_ X]. discriminate X.
      + revert X. apply (IH (fun j I => A j (or_intror I)) _ _ L).
  Qed.
End Parts.
