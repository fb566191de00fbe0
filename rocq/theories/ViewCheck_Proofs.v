(** Lemmas: each part of the check of a view reports what its part of the specification says. *)
From Coq Require Import List String ZArith Bool.
From Verif Require Import PyBase PyStr PyRefs PyReplace PyList Names_Model Names_Props FieldCheck_Model FieldCheck_Spec FieldCheck_Proofs ViewCheck_Model ViewCheck_Spec.
Import ListNotations.
Local Open Scope string_scope.
Local Open Scope list_scope.

Lemma in_say {R} b (r x : R) : In r (say b x) <-> b = true /\ r = x.
Proof. destruct b; cbn; split; try tauto; try (intros [H|[]]; auto); intros [H1 H2]; [left; congruence | discriminate]. Qed.
Lemma proper_iff n : valid_name n = true <-> proper_name n.
Proof. apply C40_valid_names. Qed.
Lemma proper_not n : valid_name n = false <-> ~ proper_name n.
Proof. rewrite <- proper_iff. destruct (valid_name n); intuition congruence. Qed.
Lemma in_keys_of {R} (f : string -> R) ok (d : ydict) r :
  In r (map f (List.filter (fun k => negb (mem k ok)) (map fst d))) <-> exists k, r = f k /\ In k (map fst d) /\ ~ In k ok.
Proof.
  rewrite in_map_iff. split.
  - intros (k & <- & I). apply filter_In in I. destruct I as [I N]. apply negb_true_iff, mem_false in N. eauto.
  - intros (k & -> & I & N). exists k. split; [reflexivity|]. apply filter_In. split; [exact I|]. apply negb_true_iff, mem_false. exact N.
Qed.
Lemma is_ok_false {A} (x : res A) : is_ok x = false <-> exists e, x = Err e.
Proof. destruct x; cbn; split; try discriminate; eauto. intros [e H]; discriminate H. Qed.

(** A key that is absent, a list, or something else *)
Lemma not_list v : ~ List_ v <-> is_list v = false. Proof. symmetry. apply list_iff. Qed.

Ltac open_or H := repeat match type of H with
  | _ \/ _ => destruct H as [H|H]; open_or H
  | _ /\ _ => let K := fresh "K" in destruct H as [K H]
  | exists _, _ => let x := fresh "x" in destruct H as [x H]
  end.
Ltac pick := repeat (first [left; solve [eauto 8] | right]); eauto 8.

(** The list of a key whose elements are checked one by one *)
Section Listed.
  Context {R : Type}.
  Variable k : string.
  Variable top : R.
  Variable item : yv -> R.
  Variable f : ydict -> res (list R).
  Definition listing (d : ydict) : res (list R) :=
    match get k d with
    | None => Ok []
    | Some (YList l) => concatM (fun v => match v with YDict s => f s | _ => Ok [item v] end) l
    | Some _ => Ok [top]
    end.
  Lemma listing_iff d out r : listing d = Ok out ->
    (In r out <-> (r = top /\ value d k (fun v => ~ List_ v)) \/ (exists v, element d k v /\ ~ Dict v /\ r = item v)
                  \/ exists s ys, element d k (YDict s) /\ f s = Ok ys /\ In r ys).
  Proof.
    unfold listing, value, element, get. destruct (assoc k d) as [v|]; cycle 1.
    { intros H. injection H as <-. split; [intros []|]. intros [(_ & v & X & _)|[(v & (l & X & _) & _)|(s & ys & (l & X & _) & _)]]; discriminate X. }
    destruct (is_list v) eqn:L.
    - destruct v as [| | | | |l|]; try discriminate L. intros H. rewrite (concatM_in _ _ _ r H). split.
      + intros (v & ys & I & Y & J). right. destruct v as [| | | | | |s].
        1-6: left; injection Y as <-; destruct J as [<-|[]]; eexists; split; [eauto|]; split; [intros [m X]; discriminate X|reflexivity].
        right. exists s, ys. eauto.
      + intros [(_ & v & X & Y)|[(v & (l' & X & I) & D & ->)|(s & ys & (l' & X & I) & Y & J)]].
        * injection X as <-. exfalso. apply Y. now exists l.
        * injection X as <-. exists v, [item v]. split; [exact I|]. split; [|now left].
          destruct v; try reflexivity. exfalso. apply D. eexists. reflexivity.
        * injection X as <-. exists (YDict s), ys. auto.
    - intros H. assert (Some v = Some v) by reflexivity.
      assert (O : out = [top]) by (destruct v; try discriminate L; now injection H as <-). subst out. cbn [In]. apply list_iff in L. split.
      + intros [<-|[]]. left. eauto.
      + intros [(-> & _)|[(w & (l' & X & I) & _)|(s & ys & (l' & X & _) & _)]]; [now left| |]; injection X as ->; exfalso; apply L; now eexists.
  Qed.
End Listed.

Section Parts.
  Variable E : venv.
  Variable n : string.
  Variable fs : list vfield.

  (** *** Plain keys *)
  Definition plain_part (d : ydict) : list vrule :=
    say (negb (valid_name n)) VName
    ++ say (bad "label" is_str d) VLabel
    ++ say (bad "description" is_str d) VDescription
    ++ say (view_long d) VDescriptionLong
    ++ say (bad "hidden" is_bool d) VHidden
    ++ say (bad "row_label" is_str d) VRowLabel
    ++ say (bad "extra" is_dict d) VExtra
    ++ say (bad "event_name" is_str d) VEventName
    ++ say (bad "fields_for_analysis" is_list d) VForAnalysis
    ++ map VProperty (List.filter (fun k => negb (mem k (view_internal ++ view_properties))) (map fst d)).
  Lemma view_long_iff d : view_long d = true <-> exists s, is_text d "description" s /\ 1024 < String.length s.
  Proof.
    unfold view_long, is_text, get. destruct (assoc "description" d) as [[]|]; try (split; [discriminate|]; intros (t & X & _); discriminate X).
    rewrite Nat.ltb_lt. unfold view_description_max_chars. split; [eauto|]. intros (t & X & H). injection X as <-. exact H.
  Qed.
  Lemma view_keys k : In k (view_internal ++ view_properties) <-> In k known_view_keys.
  Proof. apply same_members. reflexivity. Qed.
  Lemma plain_iff d r : In r (plain_part d) <-> plain_breaks n d r.
  Proof.
    unfold plain_part. rewrite !in_app_iff, !in_say, in_keys_of, negb_true_iff, proper_not, view_long_iff.
    rewrite !(bad_iff _ is_str Str) by apply str_iff. rewrite !(bad_iff _ is_bool Bool_) by apply bool_iff. rewrite !(bad_iff _ is_dict Dict) by apply dict_iff.
    rewrite !(bad_iff _ is_list List_) by apply list_iff. unfold plain_breaks. generalize 1024. intros most. split.
    - intros H. open_or H. all: try (subst r; assumption). subst r. split; [assumption|]. rewrite <- view_keys. exact H.
    - destruct r; intros H; try (exfalso; exact H); try solve [pick]. do 9 right. rewrite <- view_keys in H. destruct H. eauto.
  Qed.

  (** *** Tables *)
  Lemma derived_iff d r : In r (derived_errors d) <-> match r with VDerived | VNoDerivedSql | VDerivedSql => table_breaks d r | _ => False end.
  Proof.
    unfold derived_errors, table_breaks, value, lacks, get. destruct (assoc "derived_table" d) as [v|].
    - destruct (is_dict v) eqn:D.
      + destruct v as [| | | | | |m]; try discriminate D. rewrite in_app_iff, !in_say, negb_true_iff, has_false, (bad_iff _ is_str Str) by apply str_iff. split.
        * intros [[H ->]|[H ->]]; [exists m; split; [reflexivity|exact H] | exists m; split; [reflexivity|exact H]].
        * destruct r; try (intros []; fail); intros H.
          -- destruct H as (w & X & Y). injection X as <-. exfalso. apply Y. now exists m.
          -- destruct H as (w & X & Y). injection X as <-. auto.
          -- destruct H as (w & X & Y). injection X as <-. right. split; [exact Y|reflexivity].
      + assert (O : forall x, In x (match v with YDict m => say (negb (has "sql" m)) VNoDerivedSql ++ say (bad "sql" is_str m) VDerivedSql | _ => [VDerived] end) <-> x = VDerived)
          by (intros x; destruct v; try discriminate D; cbn; intuition congruence).
        rewrite O. apply dict_iff in D. split; [intros ->; eauto|]. destruct r; try (intros []; fail); try reflexivity.
        all: intros (m & X & _); injection X as ->; exfalso; apply D; now exists m.
    - cbn [In]. split; [intros []|]. destruct r; try (intros []; fail); intros (m & X & _); discriminate X.
  Qed.
  Lemma table_iff d out r : table_errors E d = Ok out -> (In r (out ++ derived_errors d) <-> table_breaks d r).
  Proof.
    unfold table_errors. intros H. apply bind_ok in H. destruct H as [u [_ H]]. apply ok_inj in H. subst out.
    rewrite in_app_iff, derived_iff, !in_app_iff, !in_say, !andb_true_iff, !negb_true_iff, !has_true, !has_false, (bad_iff _ is_str Str) by apply str_iff.
    split.
    - intros [[[H ->]|[[H ->]|[H ->]]]|H]; try exact H. destruct r; try (exfalso; exact H); exact H.
    - destruct r; cbn [table_breaks]; intros H; try (exfalso; exact H); tauto.
  Qed.

  (** *** The default date *)
  Lemma date_iff d out r : date_errors E n d = Ok out -> (In r out <-> date_breaks E n d r).
  Proof.
    unfold date_errors, date_breaks, value, is_text, get. destruct (assoc "default_date" d) as [v|]; cycle 1.
    { intros H0. apply ok_inj in H0. subst out. split; [intros []|]. destruct r; try (intros []; fail).
      1: intros (v & X & _); discriminate X.
      all: intros H; open_or H; try discriminate. all: destruct K as (s & X & _); discriminate X. }
    destruct (is_str v) eqn:S; cycle 1.
    { intros H0. assert (out = [VDateType]) by (destruct v; try discriminate S; congruence). subst out. apply str_iff in S. cbn [In]. split.
      - intros [<-|[]]. eauto.
      - destruct r; try (intros []; fail); try (left; reflexivity).
        all: intros H; open_or H. all: destruct K as (s & X & _); injection X as ->; exfalso; apply S; now eexists. }
    destruct v as [| | | |s| |]; try discriminate S. clear S.
    assert (NT : forall r, (exists v, Some (YStr s) = Some v /\ ~ Str v) -> In r out) by (intros ? (w & X & Y); injection X as <-; exfalso; apply Y; now eexists).
    destruct (String.eqb_spec s "") as [->|NE].
    { intros H0. apply ok_inj in H0. subst out. split; [intros []|]. destruct r; try (intros []; fail); try apply NT.
      all: intros H; open_or H. all: destruct K as (s & X & Y & _); congruence. }
    assert (NM : forall c (P : Prop), (exists s0, Some (YStr s) = Some (YStr s0) /\ s0 <> "" /\ c = in_view n s0) /\ P <-> c = in_view n s /\ P).
    { intros c P. split; [intros [(t & X & _ & ->) Y]; injection X as <-; auto|]. intros [-> Y]. split; [eauto|exact Y]. }
    change (dotted n s) with (in_view n s).
    destruct (ve_by_name E (in_view n s)) as [i|e] eqn:B; cycle 1.
    { intros H0. rename H0 into HH. assert (V : out = [VDateMissing] /\ (e = AccessDenied \/ e = QueryError)) by (destruct e; try discriminate HH; injection HH as <-; auto). destruct V as [-> V]. cbn [In]. split.
      - intros [<-|[]]. exists (in_view n s). apply NM. split; [reflexivity|]. rewrite B. destruct V as [->| ->]; auto.
      - destruct r; try (intros []; fail); try apply NT; try (left; reflexivity).
        + intros (c & j & H). apply NM in H. destruct H as (-> & H & _). congruence.
        + intros (c & j & l & H). apply NM in H. destruct H as (-> & H & _). congruence. }
    assert (KD : negb (String.eqb (fi_ftype i) "dimension_group") || negb (String.eqb (fi_type i) "time") = true <-> ~ (fi_ftype i = "dimension_group" /\ fi_type i = "time")).
    { rewrite orb_true_iff, !negb_true_iff, !String.eqb_neq. destruct (string_dec (fi_ftype i) "dimension_group"), (string_dec (fi_type i) "time"); tauto. }
    destruct (ve_joinable E n) as [l|e] eqn:J.
    - intros H0. apply ok_inj in H0. subst out. rewrite in_app_iff, !in_say, KD, negb_true_iff, mem_false, in_app_iff. split.
      + intros [[H ->]|[H ->]].
        * exists (in_view n s), i. apply NM. auto.
        * exists (in_view n s), i, l. apply NM. split; [reflexivity|]. split; [exact B|]. split; [reflexivity|]. cbn [In] in H. split; [intros X; apply H; auto|tauto].
      + destruct r; try (intros []; fail).
        * intros X. exfalso. destruct X as (w & X & Y). injection X as <-. apply Y. now eexists.
        * intros (c & j & H). apply NM in H. destruct H as (-> & X & Y). rewrite B in X. injection X as <-. auto.
        * intros (c & j & m & H). apply NM in H. destruct H as (-> & X & Y & Z). rewrite B in X. injection X as <-. injection Y as <-. right. split; [|reflexivity].
          cbn [In]. intros [I|[I|[]]]; destruct Z; auto.
        * intros (c & H). apply NM in H. destruct H as (-> & H). rewrite B in H. destruct H as [H|[H|[_ [H|H]]]]; discriminate H.
    - intros H.
      assert (V : out = say (negb (String.eqb (fi_ftype i) "dimension_group") || negb (String.eqb (fi_type i) "time")) VDateKind ++ [VDateMissing] /\ (e = AccessDenied \/ e = QueryError))
        by (destruct e; try discriminate H; injection H as <-; auto).
      destruct V as [-> V]. rewrite in_app_iff, in_say, KD. cbn [In]. split.
      + intros [[H' ->]|[<-|[]]].
        * exists (in_view n s), i. apply NM. auto.
        * exists (in_view n s). apply NM. split; [reflexivity|]. rewrite B. right. right. split; [eauto|]. destruct V as [->| ->]; auto.
      + destruct r; try (intros []; fail).
        * intros X. exfalso. destruct X as (w & X & Y). injection X as <-. apply Y. now eexists.
        * intros (c & j & X). apply NM in X. destruct X as (-> & X & Y). rewrite B in X. injection X as <-. auto.
        * intros (c & j & m & X). apply NM in X. destruct X as (-> & X & Y & Z). discriminate Y.
        * auto.
  Qed.

  (** *** Sets *)
  Lemma one_set s out r : set_errors E n s = Ok out ->
    (In r out <-> match r with
                  | VSetKeys => ~ complete s
                  | VSet name r => complete s /\ is_text s "name" name /\ one_set_breaks E n s name r
                  | _ => False
                  end).
  Proof.
    unfold set_errors, complete. destruct (has "name" s) eqn:N; destruct (has "fields" s) eqn:F; cbn [negb orb];
      try rewrite has_true in N; try rewrite has_true in F; try rewrite has_false in N; try rewrite has_false in F.
    2-4: intros H; apply ok_inj in H; subst out; cbn [In]; split; [intros [<-|[]]; tauto | destruct r; try (intros []; fail); try tauto].
    destruct (get "name" s) as [[| | | |name| |]|] eqn:G; try discriminate. intros H. apply ok_inj in H. subst out.
    assert (NM : forall m, is_text s "name" m <-> m = name) by (intros m; unfold is_text; unfold get in G; rewrite G; split; [congruence|intros ->; reflexivity]).
    assert (FL : forall x, In x (match get "fields" s with
                           | Some (YList _) => match ve_set_names E n s with Ok l => flat_map (fun f => say (negb (is_ok (ve_get_field E f))) (SField f)) l | Err _ => [] end
                           | _ => [SFieldsType] end) <->
                 match x with SFieldsType | SField _ => one_set_breaks E n s name x | _ => False end).
    { intros x. unfold one_set_breaks, value. unfold lacks in F. unfold get. destruct (assoc "fields" s) as [v|]; [|now exfalso]. destruct (is_list v) eqn:L.
      - destruct v as [| | | | |l|]; try discriminate L. destruct (ve_set_names E n s) as [fl|e].
        + rewrite in_flat_map. split.
          * intros (f & I & J). apply in_say in J. destruct J as [J ->]. rewrite negb_true_iff, is_ok_false in J. split; [exists (YList l); split; [reflexivity|now eexists]|eauto].
          * destruct x; try (intros []; fail).
            -- intros (w & X & Y). injection X as <-. exfalso. apply Y. now eexists.
            -- intros (_ & (l' & X & I) & J). injection X as <-. exists f. split; [exact I|]. apply in_say. rewrite negb_true_iff, is_ok_false. auto.
        + cbn [In]. split; [intros []|]. destruct x; try (intros []; fail).
          * intros (w & X & Y). injection X as <-. apply Y. now eexists.
          * intros (_ & (l' & X & I) & J). discriminate X.
      - assert (O : forall A (a b : A), match v with YList _ => a | _ => b end = b) by (intros; destruct v; try discriminate L; reflexivity).
        rewrite O. apply list_iff in L. cbn [In]. split; [intros [<-|[]]; eauto|]. destruct x; try (intros []; fail); [auto|].
        intros ((w & X & Y) & _). injection X as <-. contradiction. }
    rewrite in_map_iff. setoid_rewrite in_app_iff. setoid_rewrite in_app_iff. setoid_rewrite in_app_iff. setoid_rewrite in_say. setoid_rewrite FL. setoid_rewrite in_keys_of. split.
    - intros (x & <- & H). split; [auto|]. split; [now apply NM|]. destruct H as [[H ->]|[[H ->]|[H|(k & -> & I & H)]]].
      + rewrite negb_true_iff, proper_not in H. exact H.
      + rewrite andb_true_iff, negb_true_iff, is_ok_false, proper_iff in H. exact H.
      + destruct x; try (exfalso; exact H); exact H.
      + split; [exact I|]. unfold set_keys in H. cbn [In] in H. intuition.
    - destruct r; try (intros []; fail); try tauto. intros (_ & M & H). apply NM in M. subst name0. exists r. split; [reflexivity|]. destruct r; cbn [one_set_breaks] in H.
      + left. rewrite negb_true_iff, proper_not. auto.
      + right. left. rewrite andb_true_iff, negb_true_iff, is_ok_false, proper_iff. auto.
      + right. right. left. exact H.
      + right. right. left. exact H.
      + do 3 right. exists k. split; [reflexivity|]. split; [tauto|]. unfold set_keys. cbn [In]. intuition.
  Qed.
  Lemma sets_iff d out r : sets_errors E n d = Ok out -> (In r out <-> sets_break E n d r).
  Proof.
    intros H. rewrite (listing_iff "sets" VSets VSetItem (set_errors E n) d out r H). split.
    - intros [[-> X]|[(v & X & Y & ->)|(s & ys & X & Y & I)]]; [exact X|split; auto|]. rewrite (one_set s ys r Y) in I.
      destruct r; try (exfalso; exact I); exists s; auto.
    - assert (D : forall s, element d "sets" (YDict s) -> exists ys, set_errors E n s = Ok ys).
      { intros s (l & A & I). unfold sets_errors, get in H. rewrite A in H. destruct (concatM_ok_all _ _ _ H (YDict s) I) as [ys Y]. eauto. }
      destruct r; try (intros []; fail).
      + auto.
      + intros [X Y]. right. left. eauto.
      + intros (s & X & Y). right. right. destruct (D s X) as [ys Z]. exists s, ys. split; [exact X|]. split; [exact Z|]. apply (one_set s ys _ Z). exact Y.
      + intros (s & X & Y). right. right. destruct (D s X) as [ys Z]. exists s, ys. split; [exact X|]. split; [exact Z|]. apply (one_set s ys _ Z). exact Y.
  Qed.

  (** *** Filters that are always applied *)
  Lemma one_always f out r : always_error E n f = Ok out ->
    (In r out <-> match r with
                  | VAlwaysNoField => lacks f "field"
                  | VAlwaysField q => exists s, is_text f "field" s /\ q = in_view n s /\ unknown E q
                  | VAlwaysNoValue => lacks f "value"
                  | VAlwaysValue v => assoc "value" f = Some v /\ ~ Str v /\
                      (lacks f "field" \/ exists s, is_text f "field" s /\ ve_readable E (set_key "field" (YStr (in_view n s)) f) = false)
                  | _ => False
                  end).
  Proof.
    unfold always_error, is_text, lacks, unknown, has, get. intros H. apply bind_ok in H. destruct H as [a [A H]]. apply ok_inj in H. subst out. rewrite in_app_iff.
    assert (VP : forall x, In x (match assoc "value" f with
                       | None => [VAlwaysNoValue] | Some (YStr _) => []
                       | Some v => say (negb ((match assoc "field" f with Some _ => true | None => false end) && ve_readable E (match assoc "field" f with Some (YStr s) => set_key "field" (YStr (dotted n s)) f | _ => f end))) (VAlwaysValue v) end) <->
                   (x = VAlwaysNoValue /\ assoc "value" f = None) \/ exists v, x = VAlwaysValue v /\ assoc "value" f = Some v /\ ~ Str v /\
                      (assoc "field" f = None \/ exists s, assoc "field" f = Some (YStr s) /\ ve_readable E (set_key "field" (YStr (in_view n s)) f) = false)).
    { intros x. destruct (assoc "value" f) as [v|]; cycle 1.
      { cbn [In]. split; [intros [<-|[]]; auto|]. intros [[-> _]|(v & _ & X & _)]; [auto|discriminate X]. }
      destruct (is_str v) eqn:S.
      - destruct v; try discriminate S. cbn [In]. split; [intros []|]. intros [[_ X]|(w & _ & X & Y & _)]; [discriminate X|]. injection X as <-. apply Y. now eexists.
      - assert (O : forall A (a b : A), match v with YStr _ => a | _ => b end = b) by (intros; destruct v; try discriminate S; reflexivity).
        rewrite O. apply str_iff in S. rewrite in_say, negb_true_iff. destruct (assoc "field" f) as [w|]; cbn [andb].
        + split.
          * intros [R ->]. right. exists v. split; [reflexivity|]. split; [reflexivity|]. split; [exact S|]. right.
            destruct w as [| | | |s| |]; try (cbn in A; discriminate A). exists s. split; [reflexivity|exact R].
          * intros [[_ X]|(u & -> & X & _ & [Y|(s & Y & Z)])]; try discriminate. injection X as <-. injection Y as ->. auto.
        + split; [intros [_ ->]; right; exists v; auto|]. intros [[_ X]|(u & -> & X & _)]; [discriminate X|]. injection X as <-. auto. }
    rewrite VP. clear VP.
    assert (AP : forall x, In x a <-> (x = VAlwaysNoField /\ assoc "field" f = None) \/ exists s, x = VAlwaysField (in_view n s) /\ assoc "field" f = Some (YStr s) /\ ve_get_field E (in_view n s) = Err AccessDenied).
    { intros x. destruct (assoc "field" f) as [v|]; cycle 1.
      { injection A as <-. cbn [In]. split; [intros [<-|[]]; auto|]. intros [[-> _]|(s & _ & X & _)]; [auto|discriminate X]. }
      destruct v as [| | | |s| |]; try discriminate A. change (dotted n s) with (in_view n s) in A.
      destruct (ve_get_field E (in_view n s)) as [u|e] eqn:G.
      - injection A as <-. split; [intros []|]. intros [[_ X]|(t & _ & X & Y)]; [discriminate X|]. injection X as <-. congruence.
      - assert (V : e = AccessDenied /\ a = [VAlwaysField (in_view n s)]) by (destruct e; try discriminate A; injection A as <-; auto). destruct V as [-> ->]. cbn [In]. split.
        + intros [<-|[]]. right. exists s. auto.
        + intros [[_ X]|(t & -> & X & Y)]; [discriminate X|]. injection X as <-. auto. }
    rewrite AP. clear AP A. split.
    - intros [[[-> H]|(s & -> & H)]|[[-> H]|(v & -> & H)]]; try exact H. exists s. tauto.
    - destruct r; try (intros []; fail); intros H; try tauto.
      + left. right. destruct H as (s & X & -> & Y). eauto.
      + right. right. exists v. auto.
  Qed.
  Lemma always_iff d out r : always_errors E n d = Ok out -> (In r out <-> always_breaks E n d r).
  Proof.
    intros H. rewrite (listing_iff "always_filter" VAlways VAlwaysItem (always_error E n) d out r H). split.
    - intros [[-> X]|[(v & X & Y & ->)|(s & ys & X & Y & I)]]; [exact X|split; auto|]. rewrite (one_always s ys r Y) in I.
      destruct r; try (exfalso; exact I); try (exists s; auto; fail). destruct I as (t & I). exists s, t. auto.
    - assert (D : forall s, element d "always_filter" (YDict s) -> exists ys, always_error E n s = Ok ys).
      { intros s (l & A & I). unfold always_errors, get in H. rewrite A in H. destruct (concatM_ok_all _ _ _ H (YDict s) I) as [ys Y]. eauto. }
      destruct r; try (intros []; fail); [auto|intros [X Y]; right; left; eauto| | | |].
      2: intros (s & t & X & Y). 1,3,4: intros (s & X & Y).
      all: right; right; destruct (D s X) as [ys Z]; exists s, ys; split; [exact X|]; split; [exact Z|]; apply (one_always s ys _ Z); eauto.
  Qed.

  (** *** Access filters and grants *)
  Lemma one_access f out r : access_error E f = Ok out ->
    (In r out <-> match r with
                  | VAccessNoField => lacks f "field"
                  | VAccessField q => is_text f "field" q /\ unknown E q
                  | VAccessNoAttr => lacks f "user_attribute"
                  | VAccessAttr v => assoc "user_attribute" f = Some v /\ ~ Str v
                  | _ => False
                  end).
  Proof.
    unfold access_error, is_text, lacks, unknown, get. intros H. apply bind_ok in H. destruct H as [a [A H]]. apply ok_inj in H. subst out. rewrite in_app_iff.
    assert (AP : forall x, In x a <-> (x = VAccessNoField /\ assoc "field" f = None) \/ exists s, x = VAccessField s /\ assoc "field" f = Some (YStr s) /\ ve_get_field E s = Err AccessDenied).
    { intros x. destruct (assoc "field" f) as [v|]; cycle 1.
      { injection A as <-. cbn [In]. split; [intros [<-|[]]; auto|]. intros [[-> _]|(s & _ & X & _)]; [auto|discriminate X]. }
      destruct v as [| | | |s| |]; try discriminate A. destruct (ve_get_field E s) as [u|e] eqn:G.
      - injection A as <-. split; [intros []|]. intros [[_ X]|(t & _ & X & Y)]; [discriminate X|]. injection X as <-. congruence.
      - assert (V : e = AccessDenied /\ a = [VAccessField s]) by (destruct e; try discriminate A; injection A as <-; auto). destruct V as [-> ->]. cbn [In]. split.
        + intros [<-|[]]. right. exists s. auto.
        + intros [[_ X]|(t & -> & X & Y)]; [discriminate X|]. injection X as <-. auto. }
    rewrite AP. clear AP A.
    assert (UP : forall x, In x (match assoc "user_attribute" f with None => [VAccessNoAttr] | Some v => say (negb (is_str v)) (VAccessAttr v) end) <->
                   (x = VAccessNoAttr /\ assoc "user_attribute" f = None) \/ exists v, x = VAccessAttr v /\ assoc "user_attribute" f = Some v /\ ~ Str v).
    { intros x. destruct (assoc "user_attribute" f) as [v|].
      - rewrite in_say, negb_true_iff, str_iff. split; [intros [H ->]; right; eauto|]. intros [[_ X]|(w & -> & X & Y)]; [discriminate X|]. injection X as <-. auto.
      - cbn [In]. split; [intros [<-|[]]; auto|]. intros [[-> _]|(v & _ & X & _)]; [auto|discriminate X]. }
    rewrite UP. clear UP. split.
    - intros [[[-> H]|(s & -> & H)]|[[-> H]|(v & -> & H)]]; exact H.
    - destruct r; try (intros []; fail); intros H; try tauto.
      + left. right. eauto.
      + right. right. eauto.
  Qed.
  Lemma view_grants d r : In r (view_grants_errors E d) <-> match r with VGrants | VGrantType _ | VGrant _ => access_breaks E d r | _ => False end.
  Proof.
    unfold view_grants_errors, access_breaks, value, element, get. destruct (assoc "required_access_grants" d) as [v|]; cycle 1.
    { cbn [In]. split; [intros []|]. destruct r; try (intros []; fail); intros H; open_or H; try destruct K as (l & X & _); discriminate. }
    destruct (is_list v) eqn:L.
    - destruct v as [| | | | |l|]; try discriminate L. rewrite in_flat_map. split.
      + intros (v & I & J). destruct (is_str v) eqn:S.
        * destruct v; try discriminate S. apply in_say in J. destruct J as [J ->]. rewrite negb_true_iff, mem_false in J. eauto.
        * assert (r = VGrantType v) by (destruct v; try discriminate S; destruct J as [<-|[]]; reflexivity). subst r. apply str_iff in S. eauto.
      + destruct r; try (intros []; fail).
        * intros (w & X & Y). injection X as <-. exfalso. apply Y. now eexists.
        * intros ((l' & X & I) & S). injection X as <-. exists v. split; [exact I|]. apply str_iff in S. destruct v; try discriminate S; now left.
        * intros ((l' & X & I) & S). injection X as <-. exists (YStr g). split; [exact I|]. apply in_say. rewrite negb_true_iff, mem_false. auto.
    - assert (O : forall A (f : list yv -> A) (b : A), match v with YList l => f l | _ => b end = b) by (intros; destruct v; try discriminate L; reflexivity).
      rewrite O. apply list_iff in L. cbn [In]. split; [intros [<-|[]]; eauto|]. destruct r; try (intros []; fail); [auto| |]; intros ((l & X & _) & _); injection X as ->; exfalso; apply L; exists l; reflexivity.
  Qed.
  Lemma access_iff d out r : access_errors E d = Ok out -> (In r (out ++ view_grants_errors E d) <-> access_breaks E d r).
  Proof.
    intros H. rewrite in_app_iff, view_grants, (listing_iff "access_filters" VAccess VAccessItem (access_error E) d out r H). split.
    - intros [[[-> X]|[(v & X & Y & ->)|(s & ys & X & Y & I)]]|X]; [exact X|split; auto| |].
      + rewrite (one_access s ys r Y) in I. destruct r; try (exfalso; exact I); exists s; auto.
      + destruct r; try (exfalso; exact X); exact X.
    - assert (D : forall s, element d "access_filters" (YDict s) -> exists ys, access_error E s = Ok ys).
      { intros s (l & A & I). unfold access_errors, get in H. rewrite A in H. destruct (concatM_ok_all _ _ _ H (YDict s) I) as [ys Y]. eauto. }
      destruct r; try (intros []; fail); try (intros X; right; exact X); [left; left; auto|intros [X Y]; left; right; left; eauto| | | |].
      all: intros (s & X & Y); left; right; right; destruct (D s X) as [ys Z]; exists s, ys; split; [exact X|]; split; [exact Z|]; apply (one_access s ys _ Z); eauto.
  Qed.

  (** *** The event dimension *)
  Lemma event_iff d out r : event_errors E n d = Ok out -> (In r out <-> event_breaks E n d r).
  Proof.
    unfold event_errors, event_breaks, event_dimension, value, is_text, unknown, get. destruct (assoc "event_dimension" d) as [v|]; cycle 1.
    { intros H. apply ok_inj in H. subst out. split; [intros []|]. destruct r; try (intros []; fail); intros (v & X & _); discriminate X. }
    destruct (is_str v) eqn:S; cycle 1.
    { intros H. assert (out = [VEventType]) by (destruct v; try discriminate S; congruence). subst out. apply str_iff in S. cbn [In]. split.
      - intros [<-|[]]. eauto.
      - destruct r; try (intros []; fail); [auto|]. intros (s & X & _). injection X as ->. exfalso. apply S. now eexists. }
    destruct v as [| | | |s| |]; try discriminate S. clear S. intros H. apply bind_ok in H. destruct H as [q [Q H]].
    assert (O : forall x, In x out <-> x = VEvent /\ q <> "" /\ ve_get_field E q = Err AccessDenied).
    { intros x. destruct (String.eqb_spec q "") as [->|NE]; [apply ok_inj in H; subst out; cbn; tauto|].
      destruct (ve_get_field E q) as [u|e].
      - apply ok_inj in H. subst out. cbn [In]. split; [intros []|]. intros (_ & _ & X). discriminate X.
      - destruct e; try discriminate H. apply ok_inj in H. subst out. cbn [In]. split; [intros [<-|[]]; auto|]. intros (-> & _). auto. }
    rewrite O. clear O H. split.
    - intros (-> & NE & U). exists s. split; [reflexivity|]. destruct (contains "." s).
      + right. destruct (assoc "default_date" d) as [w|]; [|discriminate Q]. apply ok_inj in Q. destruct (is_str w) eqn:W.
        * destruct w; try discriminate W. subst q. left. split; [reflexivity|]. eauto.
        * right. split; [reflexivity|]. exists w. split; [reflexivity|]. assert (Z : q = ve_str E w) by (destruct w; try discriminate W; congruence). rewrite <- Z. apply str_iff in W. auto.
      + apply ok_inj in Q. subst q. left. auto.
    - destruct r; try (intros []; fail).
      + intros (w & X & Y). injection X as <-. exfalso. apply Y. now eexists.
      + intros (t & X & H). injection X as <-. split; [reflexivity|]. destruct H as [[C H]|[[C (t & T & NE & H)]|[C (w & W & NS & NE & H)]]]; rewrite C in Q.
        * apply ok_inj in Q. subst q. split; [|exact H]. destruct n; discriminate.
        * rewrite T in Q. apply ok_inj in Q. subst q. auto.
        * rewrite W in Q. apply ok_inj in Q. assert (Z : q = ve_str E w) by (destruct w; try congruence; exfalso; apply NS; eexists; reflexivity). rewrite <- Z in *. auto.
  Qed.

  (** *** Fields *)
  Lemma dedup_aux_length seen (l : list string) : (List.length (dedup_by_aux (fun x => x) seen l) <= List.length l)%nat /\
    (List.length (dedup_by_aux (fun x => x) seen l) = List.length l <-> NoDup l /\ forall x, In x l -> ~ In x seen).
  Proof.
    revert seen. induction l as [|a l IH]; intros seen; cbn [dedup_by_aux List.length].
    - split; [lia|]. split; [intros _; split; [constructor|intros x []]|reflexivity].
    - destruct (mem a seen) eqn:M.
      + destruct (IH seen) as [A _]. split; [lia|]. split; [intros X; lia|]. intros [_ H]. exfalso. apply (H a (or_introl eq_refl)). now apply mem_In.
      + destruct (IH (a :: seen)) as [A B]. cbn [List.length]. split; [lia|]. apply mem_false in M. split.
        * intros X. assert (Y : List.length (dedup_by_aux (fun x => x) (a :: seen) l) = List.length l) by lia. apply B in Y. destruct Y as [Y Z]. split.
          -- constructor; [|exact Y]. intros I. apply (Z a I). now left.
          -- intros x [<-|I]; [exact M|]. intros J. apply (Z x I). now right.
        * intros [X Y]. f_equal. apply B. inversion X as [|? ? X1 X2]. subst. split; [exact X2|]. intros x I [<-|J]; [auto|]. apply (Y x); [now right|exact J].
  Qed.
  Lemma dedup_length l : List.length (dedup l) = List.length l <-> NoDup l.
  Proof. destruct (dedup_aux_length [] l) as [_ H]. unfold dedup, dedup_by. rewrite H. split; [tauto|]. intros N. split; [exact N|]. intros x _ []. Qed.
  Lemma dedup_members l x : In x (dedup l) <-> In x l.
  Proof. unfold dedup, dedup_by. pose proof (dedup_by_aux_keys (fun x : string => x) [] l x) as H. rewrite !map_id in H. rewrite H. cbn. tauto. Qed.
  Lemma dedup_nodup l : NoDup (dedup l).
  Proof. unfold dedup, dedup_by. pose proof (dedup_by_aux_NoDup (fun x : string => x) [] l) as H. rewrite map_id in H. exact H. Qed.
  Lemma two_of (l : list string) : NoDup l -> (1 < List.length l <-> exists a b, In a l /\ In b l /\ a <> b).
  Proof.
    intros N. destruct l as [|a [|b l]]; cbn [List.length].
    - split; [lia|]. intros (a & b & [] & _).
    - split; [lia|]. intros (x & y & [<-|[]] & [<-|[]] & X). contradiction.
    - split; [|lia]. intros _. exists a, b. inversion N as [|? ? A B]. subst. cbn. split; [auto|]. split; [auto|]. intros ->. apply A. now left.
  Qed.
  Lemma fields_iff out r : fields_errors fs = Ok out -> (In r (out ++ say (negb (existsb vf_primary fs)) VNoKey) <-> fields_break fs r).
  Proof.
    unfold fields_errors. intros H. apply bind_ok in H. destruct H as [es [A H]]. apply ok_inj in H. subst out.
    rewrite !in_app_iff, (concatM_in _ _ _ r A), !in_say, !negb_true_iff, Nat.ltb_lt, Nat.eqb_neq.
    assert (M : (1 < List.length (keys_of fs))%nat <-> exists f g, key_field fs f /\ key_field fs g /\ vf_name f <> vf_name g).
    { unfold keys_of. rewrite two_of by apply dedup_nodup.
      assert (K : forall a, In a (dedup (map vf_name (filter (fun f => vf_primary f && negb (vf_measure f)) fs))) <-> exists f, key_field fs f /\ vf_name f = a).
      { intros a. rewrite dedup_members, in_map_iff. unfold key_field. split.
        - intros (f & <- & I). apply filter_In in I. destruct I as [I J]. apply andb_true_iff in J. rewrite negb_true_iff in J. exists f. tauto.
        - intros (f & (I & P & N) & <-). exists f. split; [reflexivity|]. apply filter_In. split; [exact I|]. rewrite P, N. reflexivity. }
      split.
      - intros (a & b & X & Y & Z). apply K in X, Y. destruct X as (f & X & <-), Y as (g & Y & <-). eauto.
      - intros (f & g & X & Y & Z). exists (vf_name f), (vf_name g). rewrite !K. eauto 8. }
    rewrite M. clear M.
    assert (T : List.length (map vf_name fs) <> List.length (dedup (map vf_name fs)) <-> ~ NoDup (map vf_name fs)) by (rewrite <- dedup_length; intuition congruence).
    rewrite T. clear T.
    assert (P : existsb vf_primary fs = false <-> forall f, In f fs -> vf_primary f = false).
    { split.
      - intros X f I. destruct (vf_primary f) eqn:Q; [|reflexivity]. assert (existsb vf_primary fs = true) by (apply existsb_exists; eauto). congruence.
      - intros X. destruct (existsb vf_primary fs) eqn:Q; [|reflexivity]. apply existsb_exists in Q. destruct Q as (f & I & Q). rewrite (X f I) in Q. discriminate Q. }
    rewrite P. clear P. split.
    - intros [[(f & ys & I & H & J)|[[H ->]|[H ->]]]|[H ->]]; try exact H. apply bind_ok in H. destruct H as [e [X H]]. apply ok_inj in H. subst ys.
      apply in_map_iff in J. destruct J as (x & <- & J). exists f, e. auto.
    - destruct r; cbn [fields_break]; intros H; try (exfalso; exact H); try tauto.
      left. left. destruct H as (f & e' & I & <- & X & J). exists f, (map (VField (vf_name f)) e'). split; [exact I|]. rewrite X. split; [reflexivity|]. apply in_map. exact J.
  Qed.

  (** *** Identifiers: shape *)
  Lemma first_some_some {A B} (f : A -> option B) l y :
    first_some f l = Some y <-> exists l1 x l2, l = l1 ++ x :: l2 /\ Forall (fun a => f a = None) l1 /\ f x = Some y.
  Proof.
    induction l as [|a l IH]; cbn [first_some].
    - split; [discriminate|]. intros (l1 & x & l2 & X & _). destruct l1; discriminate X.
    - destruct (f a) as [b|] eqn:F.
      + split.
        * intros X. injection X as ->. exists [], a, l. auto.
        * intros (l1 & x & l2 & X & N & Y). destruct l1 as [|c l1]; cbn [app] in X; injection X as -> ->; [congruence|]. inversion N. congruence.
      + rewrite IH. split.
        * intros (l1 & x & l2 & -> & N & Y). exists (a :: l1), x, l2. auto.
        * intros (l1 & x & l2 & X & N & Y). destruct l1 as [|c l1]; cbn [app] in X; injection X as -> ->; [congruence|]. inversion N. eauto 6.
  Qed.
  Lemma first_some_none {A B} (f : A -> option B) l : first_some f l = None <-> Forall (fun a => f a = None) l.
  Proof.
    induction l as [|a l IH]; cbn [first_some]; [split; constructor|]. destruct (f a) as [b|] eqn:F.
    - split; [discriminate|]. intros X. inversion X. congruence.
    - rewrite IH. split; [constructor; auto|]. intros X. inversion X. auto.
  Qed.
  Lemma part_none v : part_fault v = None <-> good_part v.
  Proof.
    unfold good_part. destruct v; cbn [part_fault]; try (split; [discriminate|intros (m & X & _); discriminate X]).
    destruct (has "name" d) eqn:H; [rewrite has_true in H|rewrite has_false in H]; split; try discriminate; try (intros _; eauto; fail); try reflexivity.
    intros (m & X & Y). injection X as <-. contradiction.
  Qed.
  Lemma part_some v f : part_fault v = Some f <-> part_shape v f.
  Proof.
    destruct (is_dict v) eqn:D.
    - destruct v as [| | | | | |m]; try discriminate D. cbn [part_fault]. destruct (has "name" m) eqn:H; [rewrite has_true in H|rewrite has_false in H].
      + split; [discriminate|]. destruct f; cbn [part_shape]; try (intros []; fail).
        * intros [_ X]. exfalso. apply X. now eexists.
        * intros [X Y]. injection X as ->. contradiction.
      + split; [intros X; injection X as <-; split; auto|]. destruct f; cbn [part_shape]; try (intros []; fail).
        * intros [_ X]. exfalso. apply X. now eexists.
        * intros [X Y]. now injection X as ->.
    - assert (O : part_fault v = Some (FPart v)) by (destruct v; try discriminate D; reflexivity). rewrite O. apply dict_iff in D. split.
      + intros X. injection X as <-. split; auto.
      + destruct f; cbn [part_shape]; try (intros []; fail); [intros [-> _]; reflexivity|]. intros [-> _]. exfalso. apply D. now eexists.
  Qed.
  Definition parts_fault (i : ydict) : option idfault :=
    match get "identifiers" i with None => None | Some (YList l) => first_some part_fault l | Some _ => Some FPartsNotList end.
  Lemma Forall_part l : Forall (fun a => part_fault a = None) l <-> Forall good_part l.
  Proof. split; apply Forall_impl; intros a; apply part_none. Qed.
  Lemma parts_none i : parts_fault i = None <-> good_parts i.
  Proof.
    unfold parts_fault, good_parts, lacks, get. destruct (assoc "identifiers" i) as [v|]; [|tauto].
    destruct v as [| | | | |l|].
    6:{ rewrite first_some_none, Forall_part. split; [eauto|]. intros [X|(l' & X & Y)]; [discriminate X|]. now injection X as <-. }
    all: split; [discriminate|]; intros [X|(l' & X & Y)]; discriminate X.
  Qed.
  Lemma parts_some i f : parts_fault i = Some f <-> parts_shape i f.
  Proof.
    unfold parts_fault, parts_shape, value, get. destruct (assoc "identifiers" i) as [v|]; cycle 1.
    { split; [discriminate|]. destruct f; try (intros []; fail); [intros (v & X & _)|intros (l & p & l' & X & _)|intros (l & p & l' & X & _)]; discriminate X. }
    destruct (is_list v) eqn:L.
    - destruct v as [| | | | |l|]; try discriminate L. rewrite first_some_some. split.
      + intros (l1 & x & l2 & -> & N & Y). apply part_some in Y. apply Forall_part in N. destruct f; try (exfalso; exact Y); exists l1, x, l2; auto.
      + destruct f; try (intros []; fail).
        1: intros (w & X & Y); injection X as <-; exfalso; apply Y; now eexists.
        all: intros (l1 & p & l2 & X & N & Y); injection X as ->; exists l1, p, l2; split; [reflexivity|]; split; [now apply Forall_part|now apply part_some].
    - assert (O : forall A (f : list yv -> A) (b : A), match v with YList l => f l | _ => b end = b) by (intros; destruct v; try discriminate L; reflexivity).
      rewrite O. apply list_iff in L. split; [intros X; injection X as <-; eauto|]. destruct f; try (intros []; fail); [reflexivity| |];
        intros (l1 & p & l2 & X & _); injection X as ->; exfalso; apply L; eexists; reflexivity.
  Qed.
  Lemma id_fault_eq i : id_fault (YDict i) =
    if negb (has "name" i) then Some FNoName else if negb (has "type" i) then Some FNoType
    else match parts_fault i with
         | Some f => Some f
         | None => if eq_str (get "type" i) "join" then
                if negb (has "relationship" i) then Some FNoRelationship
                else if negb (str_in (get "relationship" i) relationship_options) then Some FRelationship
                else if negb (has "sql_on" i) then Some FNoSqlOn
                else if negb (has "reference" i) then Some FNoReference
                else None
              else None
         end.
  Proof. reflexivity. Qed.
  Lemma shape_dict i f : shape (YDict i) f <->
    match f with
    | FNoName => lacks i "name"
    | FNoType => ~ lacks i "name" /\ lacks i "type"
    | FPartsNotList | FPart _ | FPartName _ => ~ lacks i "name" /\ ~ lacks i "type" /\ parts_shape i f
    | FNoRelationship => ~ lacks i "name" /\ good_parts i /\ is_text i "type" "join" /\ lacks i "relationship"
    | FRelationship => ~ lacks i "name" /\ good_parts i /\ is_text i "type" "join" /\ value i "relationship" (fun v => ~ OneOf relationships v)
    | FNoSqlOn => ~ lacks i "name" /\ good_parts i /\ is_text i "type" "join" /\ value i "relationship" (OneOf relationships) /\ lacks i "sql_on"
    | FNoReference => ~ lacks i "name" /\ good_parts i /\ is_text i "type" "join" /\ value i "relationship" (OneOf relationships) /\ ~ lacks i "sql_on" /\ lacks i "reference"
    | _ => False
    end.
  Proof.
    unfold shape. split.
    - intros [[_ X]|(j & X & H)]; [exfalso; apply X; now exists i|]. injection X as <-. exact H.
    - intros H. right. exists i. split; [reflexivity|exact H].
  Qed.
  Lemma well_shaped_dict i : well_shaped (YDict i) <-> ~ lacks i "name" /\ ~ lacks i "type" /\ good_parts i /\
      (is_text i "type" "join" -> value i "relationship" (OneOf relationships) /\ ~ lacks i "sql_on" /\ ~ lacks i "reference").
  Proof. unfold well_shaped. split; [intros (j & X & H); injection X as <-; exact H|]. intros H. exists i. auto. Qed.
  Lemma not_oneof i k l : value i k (fun v => ~ OneOf l v) <-> ~ lacks i k /\ ~ value i k (OneOf l).
  Proof.
    unfold value, lacks. destruct (assoc k i) as [v|].
    - split; [intros (w & X & Y); injection X as <-; split; [discriminate|]; intros (u & X & Z); injection X as <-; contradiction|]. intros [_ X]. exists v. split; [reflexivity|]. intros Y. apply X. eauto.
    - split; [intros (w & X & _); discriminate X|]. intros [X _]. contradiction.
  Qed.
  Lemma value_has i k P : value i k P -> ~ lacks i k.
  Proof. unfold value, lacks. intros (v & X & _). congruence. Qed.
  Lemma join_has_type i : is_text i "type" "join" -> ~ lacks i "type".
  Proof. unfold is_text, lacks. congruence. Qed.
  Lemma parts_excl i f : parts_shape i f -> ~ good_parts i.
  Proof. rewrite <- parts_some, <- parts_none. congruence. Qed.
  Lemma id_fault_cases i : (exists f, id_fault (YDict i) = Some f /\ shape (YDict i) f) \/ (id_fault (YDict i) = None /\ well_shaped (YDict i)).
  Proof.
    rewrite id_fault_eq. destruct (has "name" i) eqn:N; cbn [negb]; [rewrite has_true in N|rewrite has_false in N; left; exists FNoName; rewrite shape_dict; cbv beta iota; tauto].
    destruct (has "type" i) eqn:T; cbn [negb]; [rewrite has_true in T|rewrite has_false in T; left; exists FNoType; rewrite shape_dict; cbv beta iota; tauto].
    destruct (parts_fault i) as [f|] eqn:P.
    { apply parts_some in P. left. exists f. split; [reflexivity|]. rewrite shape_dict. destruct f; try (exfalso; exact P); tauto. }
    apply parts_none in P. destruct (eq_str (get "type" i) "join") eqn:J; [rewrite eq_str_get in J|rewrite eq_str_not in J]; cycle 1.
    { right. split; [reflexivity|]. rewrite well_shaped_dict. tauto. }
    destruct (has "relationship" i) eqn:R; cbn [negb]; [rewrite has_true in R|rewrite has_false in R; left; exists FNoRelationship; rewrite shape_dict; cbv beta iota; tauto].
    destruct (str_in (get "relationship" i) relationship_options) eqn:S; cbn [negb].
    2:{ rewrite str_in_get_not in S. left. exists FRelationship. rewrite shape_dict, not_oneof. split; [reflexivity|]. split; [exact N|]. split; [exact P|]. split; [exact J|]. split; [exact R|exact S]. }
    rewrite str_in_get in S.
    destruct (has "sql_on" i) eqn:Q; cbn [negb]; [rewrite has_true in Q|rewrite has_false in Q; left; exists FNoSqlOn; rewrite shape_dict; cbv beta iota; tauto].
    destruct (has "reference" i) eqn:F; cbn [negb]; [rewrite has_true in F|rewrite has_false in F; left; exists FNoReference; rewrite shape_dict; cbv beta iota; tauto].
    right. rewrite well_shaped_dict. split; [reflexivity|]. tauto.
  Qed.
  Lemma fault_of_shape i f : shape (YDict i) f -> id_fault (YDict i) = Some f.
  Proof.
    rewrite shape_dict, id_fault_eq. intros H. destruct f; try (exfalso; exact H).
    - apply has_false in H. rewrite H. reflexivity.
    - destruct H as [N T]. apply has_true in N. apply has_false in T. rewrite N, T. reflexivity.
    - destruct H as (N & T & P). apply has_true in N, T. apply parts_some in P. rewrite N, T, P. reflexivity.
    - destruct H as (N & T & P). apply has_true in N, T. apply parts_some in P. rewrite N, T, P. reflexivity.
    - destruct H as (N & T & P). apply has_true in N, T. apply parts_some in P. rewrite N, T, P. reflexivity.
    - destruct H as (N & P & J & R). pose proof (join_has_type _ J) as T. apply has_true in N, T. apply parts_none in P. apply eq_str_get in J. apply has_false in R. rewrite N, T, P, J, R. reflexivity.
    - destruct H as (N & P & J & R). pose proof (join_has_type _ J) as T. apply has_true in N, T. apply parts_none in P. apply eq_str_get in J. apply not_oneof in R. destruct R as [R S]. apply has_true in R. apply (str_in_get_not _ _ relationships) in S.
      change relationships with relationship_options in S. rewrite N, T, P, J, R, S. reflexivity.
    - destruct H as (N & P & J & S & Q). pose proof (join_has_type _ J) as T. pose proof (value_has _ _ _ S) as R. apply has_true in N, T, R. apply parts_none in P. apply eq_str_get in J. apply str_in_get in S. apply has_false in Q.
      change relationships with relationship_options in S. rewrite N, T, P, J, R, S, Q. reflexivity.
    - destruct H as (N & P & J & S & Q & F). pose proof (join_has_type _ J) as T. pose proof (value_has _ _ _ S) as R. apply has_true in N, T, R, Q. apply parts_none in P. apply eq_str_get in J. apply str_in_get in S. apply has_false in F.
      change relationships with relationship_options in S. rewrite N, T, P, J, R, S, Q, F. reflexivity.
  Qed.
  Lemma fault_none v : id_fault v = None <-> well_shaped v.
  Proof.
    destruct (is_dict v) eqn:D.
    - destruct v as [| | | | | |i]; try discriminate D. rewrite well_shaped_dict. split.
      + intros H. destruct (id_fault_cases i) as [(f & X & _)|[_ W]]; [congruence|]. now apply well_shaped_dict.
      + intros (N & T & P & J). destruct (id_fault_cases i) as [(f & X & S)|[X _]]; [|exact X]. exfalso. rewrite shape_dict in S. destruct f; try contradiction; try tauto.
        * destruct S as (_ & _ & S). exact (parts_excl _ _ S P).
        * destruct S as (_ & _ & S). exact (parts_excl _ _ S P).
        * destruct S as (_ & _ & S). exact (parts_excl _ _ S P).
        * destruct S as (_ & _ & S & R). destruct (J S) as [V _]. exact (value_has _ _ _ V R).
        * destruct S as (_ & _ & S & R). destruct (J S) as [V _]. apply not_oneof in R. tauto.
    - assert (O : id_fault v = Some (FNotDict v)) by (destruct v; try discriminate D; reflexivity). rewrite O. apply dict_iff in D. split; [discriminate|]. intros (i & -> & _). exfalso. apply D. now exists i.
  Qed.
  Lemma fault_some v f : id_fault v = Some f <-> shape v f.
  Proof.
    destruct (is_dict v) eqn:D.
    - destruct v as [| | | | | |i]; try discriminate D. split; [|apply fault_of_shape]. intros H. destruct (id_fault_cases i) as [(g & X & S)|[X _]]; congruence.
    - assert (O : id_fault v = Some (FNotDict v)) by (destruct v; try discriminate D; reflexivity). rewrite O. apply dict_iff in D. unfold shape. split; [intros X; injection X as <-; auto|].
      intros [[-> _]|(i & -> & _)]; [reflexivity|]. exfalso. apply D. now exists i.
  Qed.

  (** *** Identifiers: rules *)
  Lemma custom_iff i out r : ~ lacks i "reference" -> value i "relationship" (OneOf relationships) -> custom_errors E i = Ok out -> (In r out <-> custom_breaks E i r).
  Proof.
    intros F R. unfold custom_errors. intros H. apply bind_ok in H. destruct H as [a [A H]]. apply ok_inj in H. subst out.
    rewrite !in_app_iff, !in_say, !has_oneof, (bad_iff _ is_str Str) by apply str_iff.
    assert (NR : ~ value i "relationship" (fun v => ~ OneOf relationship_options v)) by (rewrite not_oneof; tauto).
    assert (AP : forall x, In x a <-> (x = IReferenceType /\ value i "reference" (fun v => ~ Str v)) \/ (x = IReference /\ exists v, is_text i "reference" v /\ ve_views E v = Err AccessDenied)).
    { intros x. unfold value, is_text, lacks, get in *. destruct (assoc "reference" i) as [v|]; [|now exfalso]. destruct (is_str v) eqn:S.
      - destruct v as [| | | |s| |]; try discriminate S. destruct (ve_views E s) as [u|e] eqn:G.
        + apply ok_inj in A. subst a. split; [intros []|]. intros [(_ & w & X & Y)|(_ & w & X & Y)]; injection X as <-; [apply Y; eexists; reflexivity|congruence].
        + assert (V : e = AccessDenied /\ a = [IReference]) by (destruct e; try discriminate A; apply ok_inj in A; auto). destruct V as [-> ->]. cbn [In]. split.
          * intros [<-|[]]. right. eauto.
          * intros [(_ & w & X & Y)|(-> & _)]; [|auto]. injection X as <-. exfalso. apply Y. eexists. reflexivity.
      - assert (a = [IReferenceType]) by (destruct v; try discriminate S; congruence). subst a. apply str_iff in S. cbn [In]. split; [intros [<-|[]]; eauto 6|].
        intros [(-> & _)|(-> & w & X & _)]; [auto|]. injection X as ->. exfalso. apply S. eexists. reflexivity. }
    rewrite AP. clear AP. split.
    - intros [[[-> H]|[-> H]]|[[H ->]|[[H ->]|[H ->]]]]; try exact H. contradiction.
    - destruct r; cbn [custom_breaks]; intros H; try (exfalso; exact H); try tauto.
  Qed.
  Lemma key_iff name t i out r : good_parts i -> key_errors E n name t i = Ok out -> (In r out <-> key_breaks E n name t i r).
  Proof.
    intros G. unfold key_errors, key_breaks, value, is_text, lacks, unknown. unfold good_parts, lacks in G. unfold get. destruct (assoc "sql" i) as [v|].
    - destruct (is_str v) eqn:S.
      + destruct v as [| | | |s| |]; try discriminate S.
        assert (NT : forall P : Prop, (exists v, Some (YStr s) = Some v /\ ~ Str v) -> P) by (intros P (w & X & Y); injection X as <-; exfalso; apply Y; eexists; reflexivity).
        destruct (contains "${" s) eqn:C; cbn [negb].
        * intros H. rewrite (concatM_in _ _ _ r H). split.
          -- intros (q & ys & I & Y & J). destruct (String.eqb_spec q "TABLE") as [->|NE]; [apply ok_inj in Y; subst ys; destruct J|].
             destruct (field_name_parts q) as [[e w] c] eqn:FP. destruct (ve_get_field E ((match w with Some v => v | None => n end) ++ "." ++ c)%string) as [u|x] eqn:U.
             ++ apply ok_inj in Y. subst ys. destruct J.
             ++ assert (V : x = AccessDenied /\ ys = [ISqlRef q]) by (destruct x; try discriminate Y; apply ok_inj in Y; auto). destruct V as [-> ->]. destruct J as [<-|[]]. exists s.
                rewrite FP. auto 8.
          -- destruct r as [| | | | | | | | | | | |q| | | | | | | | | |]; try (intros []; fail); try (intros HH; exact (NT _ HH)); try (intros H'; open_or H'; try congruence; try discriminate; fail).
             intros (s' & X & _ & I & NE & U). injection X as <-. exists q, [ISqlRef q]. split; [exact I|]. apply String.eqb_neq in NE. rewrite NE.
             destruct (field_name_parts q) as [[e w] c]. rewrite U. split; [reflexivity|now left].
        * intros H. apply ok_inj in H. subst out. cbn [In]. split.
          -- intros [<-|[]]. eauto.
          -- destruct r; try (intros []; fail); try (intros HH; exact (NT _ HH)); try (left; reflexivity); intros H'; open_or H'; try discriminate. all: try (injection K as <-); congruence.
      + intros H. assert (out = [ISql]) by (destruct v; try discriminate S; congruence). subst out. apply str_iff in S. cbn [In]. split; [intros [<-|[]]; eauto|].
        destruct r; try (intros []; fail); try (left; reflexivity); intros H'; open_or H'; try discriminate. all: injection K as ->; exfalso; apply S; eexists; reflexivity.
    - assert (NS : forall (Q : yv -> Prop) (P : Prop), (exists v, None = Some v /\ Q v) -> P) by (intros Q P (w & X & _); discriminate X).
      destruct (assoc "identifiers" i) as [v|].
      + destruct G as [G|(l & G & L)]; [discriminate G|]. injection G as ->. intros H. apply ok_inj in H. subst out.
        assert (O : flat_map (fun v => match v with YDict m => say (negb (has "name" m)) IPartName | _ => [IPart v] end) l = []).
        { induction L as [|v l (m & -> & X) L IH]; [reflexivity|]. cbn [flat_map]. rewrite IH. apply has_true in X. rewrite X. reflexivity. }
        rewrite O, app_nil_r, in_say, negb_true_iff, String.eqb_neq. split.
        * intros [H ->]. split; [reflexivity|]. split; [discriminate|exact H].
        * destruct r; try (intros []; fail); try (intros HH; exact (NS _ _ HH)); intros H; open_or H; try discriminate; auto.
      + destruct (ve_get_field E (n ++ "." ++ name)%string) as [u|x] eqn:U.
        * intros H. apply ok_inj in H. subst out. split; [intros []|]. destruct r; try (intros []; fail); try (intros HH; exact (NS _ _ HH)); intros H; open_or H; try discriminate; congruence.
        * intros H. assert (V : x = AccessDenied /\ out = [INoField]) by (destruct x; try discriminate H; apply ok_inj in H; auto). destruct V as [-> ->]. cbn [In]. split.
          -- intros [<-|[]]. auto.
          -- destruct r; try (intros []; fail); try (intros HH; exact (NS _ _ HH)); intros H'; open_or H'; try discriminate; try congruence. auto.
  Qed.
  Lemma custom_rules i r : custom_breaks E i r -> match r with IReferenceType | IReference | IJoinType | ISqlOn => True | _ => False end.
  Proof. destruct r; cbn; intros H; exact I || exact H. Qed.
  Lemma key_rules m t i r : key_breaks E n m t i r -> match r with ISql | ISqlPlain | ISqlRef _ | INoField | IPartsType => True | _ => False end.
  Proof. destruct r; cbn; intros H; exact I || exact H. Qed.
  Lemma id_keys t k : In t identifier_options -> (In k ((if String.eqb t "join" then custom_keys else key_keys) ++ ["name"; "type"] ++ join_as_keys) <-> In k (known_id_keys t)).
  Proof. intros [<-|[<-|[<-|[]]]]; apply same_members; reflexivity. Qed.
  Lemma one_id i out r : well_shaped (YDict i) -> id_errors E n i = Ok out -> (In r out <-> id_breaks E n i r).
  Proof.
    rewrite well_shaped_dict. intros (N & T & G & J). unfold id_errors. unfold get at 1. destruct (assoc "name" i) as [v|] eqn:AN; [|now exfalso]. destruct (is_str v) eqn:S; cycle 1.
    { intros H. assert (out = [INameType]) by (destruct v; try discriminate S; congruence). subst out. apply str_iff in S. cbn [In].
      assert (NN : forall m, ~ is_text i "name" m) by (intros m X; unfold is_text in X; rewrite AN in X; injection X as ->; apply S; eexists; reflexivity).
      assert (NV : ~ value i "name" Str) by (intros (w & X & [m ->]); exact (NN m X)).
      split; [intros [<-|[]]; exists v; auto|]. destruct r; cbn [id_breaks]; try (left; reflexivity); intros H'; open_or H'; exfalso; first [apply NV; assumption | eapply NN; eassumption]. }
    destruct v as [| | | |m| |]; try discriminate S. clear S.
    assert (NM : forall x, is_text i "name" x <-> x = m) by (intros x; unfold is_text; rewrite AN; split; [congruence|intros ->; reflexivity]).
    assert (NT : ~ value i "name" (fun v => ~ Str v)) by (intros (w & X & Y); rewrite AN in X; injection X as <-; apply Y; eexists; reflexivity).
    assert (NV : value i "name" Str) by (exists (YStr m); split; [exact AN|now eexists]).
    assert (NI : forall x, In x (say (negb (valid_name m)) IName) <-> x = IName /\ id_breaks E n i IName).
    { intros x. rewrite in_say, negb_true_iff, proper_not. cbn [id_breaks]. split; [intros [H ->]; split; [reflexivity|]; exists m; rewrite NM; auto|]. intros [-> (y & X & Y)]. apply NM in X. subst y. auto. }
    unfold get at 1. destruct (assoc "type" i) as [v|] eqn:AT; [|now exfalso]. destruct (is_str v) eqn:S; cycle 1.
    { intros H. assert (out = say (negb (valid_name m)) IName ++ [IType]) by (destruct v; try discriminate S; congruence). subst out. apply str_iff in S. rewrite in_app_iff, NI. cbn [In].
      assert (NX : forall x, ~ is_text i "type" x) by (intros x X; unfold is_text in X; rewrite AT in X; injection X as ->; apply S; eexists; reflexivity). split.
      - intros [[-> H']|[<-|[]]]; [exact H'|]. split; [exact NV|]. exists v. auto.
      - destruct r; try (intros H'; left; split; [reflexivity|exact H']; fail); try (intros _; right; left; reflexivity); cbn [id_breaks]; intros H'; exfalso; auto.
        1: destruct H' as [_ (w & X & Y & _)]; rewrite AT in X; injection X as <-; contradiction.
        all: destruct H' as (a & b & _ & X & _); exact (NX _ X). }
    destruct v as [| | | |t| |]; try discriminate S. clear S.
    assert (TM : forall x, is_text i "type" x <-> x = t) by (intros x; unfold is_text; rewrite AT; split; [congruence|intros ->; reflexivity]).
    assert (TT : ~ value i "type" (fun v => ~ Str v)) by (intros (w & X & Y); rewrite AT in X; injection X as <-; apply Y; eexists; reflexivity).
    destruct (mem t identifier_options) eqn:M; cbn [negb]; [apply mem_In in M|apply mem_false in M]; cycle 1.
    { intros H. apply ok_inj in H. subst out. rewrite in_app_iff, NI. cbn [In]. split.
      - intros [[-> H']|[<-|[]]]; [exact H'|]. split; [exact NV|]. exists (YStr t). split; [exact AT|]. split; [now eexists|]. intros (x & X & Y). injection X as <-. exact (M Y).
      - destruct r; try (intros H'; left; split; [reflexivity|exact H']; fail); try (intros _; right; left; reflexivity); cbn [id_breaks]; intros H'; exfalso; try tauto.
        all: destruct H' as (a & b & _ & X & Y & _); apply TM in X; subst b; exact (M Y). }
    intros H. apply bind_ok in H. destruct H as [b [B H]]. apply ok_inj in H. subst out.
    rewrite !in_app_iff, NI, in_keys_of.
    assert (OT : ~ id_breaks E n i ITypeOption).
    { intros [_ (w & X & Y & Z)]. rewrite AT in X. injection X as <-. apply Z. exists t. auto. }
    assert (W : forall x, (exists m0 t0, is_text i "name" m0 /\ is_text i "type" t0 /\ In t0 ["primary"; "foreign"; "join"] /\ x m0 t0) <-> x m t : Prop).
    { intros x. split; [intros (a & c & X & Y & _ & Z); apply NM in X; apply TM in Y; now subst|]. intros X. exists m, t. rewrite NM, TM. auto. }
    assert (BI : In r b <-> t = "join" /\ custom_breaks E i r \/ t <> "join" /\ key_breaks E n m t i r).
    { destruct (String.eqb_spec t "join") as [->|NJ].
      - destruct J as (R & _ & F); [now apply TM|]. rewrite (custom_iff i b r F R B). tauto.
      - rewrite (key_iff m t i b r G B). tauto. }
    rewrite BI. clear BI B.
    assert (JA : In r (if has "join_as" i then say (bad "join_as" is_str i) IJoinAs ++ say (bad "join_as_label" is_str i) IJoinAsLabel
                        ++ say (bad "join_as_field_prefix" is_str i) IJoinAsPrefix ++ say (bad "include_metrics" is_bool i) IMetrics else []) <->
                 (r = IJoinAs /\ value i "join_as" (fun v => ~ Str v)) \/ (r = IJoinAsLabel /\ ~ lacks i "join_as" /\ value i "join_as_label" (fun v => ~ Str v))
                 \/ (r = IJoinAsPrefix /\ ~ lacks i "join_as" /\ value i "join_as_field_prefix" (fun v => ~ Str v)) \/ (r = IMetrics /\ ~ lacks i "join_as" /\ value i "include_metrics" (fun v => ~ Bool_ v))).
    { rewrite <- !has_true. destruct (has "join_as" i) eqn:HJ.
      - rewrite !in_app_iff, !in_say, !(bad_iff _ is_str Str) by apply str_iff. rewrite (bad_iff _ is_bool Bool_) by apply bool_iff. intuition.
      - cbn [In]. rewrite has_false in HJ. split; [intros []|]. intros [[_ X]|[(_ & X & _)|[(_ & X & _)|(_ & X & _)]]]; try discriminate. exact (value_has _ _ _ X HJ). }
    rewrite JA. clear JA. split.
    - intros [[-> H]|[H|[H|(k & -> & I & H)]]]; [exact H| | |].
      + assert (X : match r with IReferenceType | IReference | IJoinType | ISqlOn | ISql | ISqlPlain | ISqlRef _ | INoField | IPartsType => True | _ => False end).
        { destruct H as [[_ H]|[_ H]]; [apply custom_rules in H|apply key_rules in H]; destruct r; tauto. }
        destruct r; try (exfalso; exact X); cbn [id_breaks]; apply (W (fun m t => t = "join" /\ custom_breaks E i _ \/ t <> "join" /\ key_breaks E n m t i _)); exact H.
      + destruct H as [[-> H]|[[-> H]|[[-> H]|[-> H]]]]; cbn [id_breaks].
        * apply (W (fun _ _ => value i "join_as" (fun v => ~ Str v))). exact H.
        * apply (W (fun _ _ => ~ lacks i "join_as" /\ value i "join_as_label" (fun v => ~ Str v))). exact H.
        * apply (W (fun _ _ => ~ lacks i "join_as" /\ value i "join_as_field_prefix" (fun v => ~ Str v))). exact H.
        * apply (W (fun _ _ => ~ lacks i "join_as" /\ value i "include_metrics" (fun v => ~ Bool_ v))). exact H.
      + cbn [id_breaks]. apply (W (fun _ t => In k (map fst i) /\ ~ In k (known_id_keys t))). split; [exact I|]. rewrite <- (id_keys t k M). exact H.
    - destruct r; try (intros H; left; split; [reflexivity|exact H]; fail); intros H; try contradiction; try (exfalso; tauto).
      all: cbn [id_breaks] in H.
      all: try (apply (W (fun m t => t = "join" /\ custom_breaks E i _ \/ t <> "join" /\ key_breaks E n m t i _)) in H; right; left; exact H).
      all: try (exfalso; destruct H as [_ H]; contradiction).
      + right. right. left. left. split; [reflexivity|]. apply (W (fun _ _ => value i "join_as" (fun v => ~ Str v))) in H. exact H.
      + right. right. left. right. left. split; [reflexivity|]. apply (W (fun _ _ => ~ lacks i "join_as" /\ value i "join_as_label" (fun v => ~ Str v))) in H. exact H.
      + right. right. left. right. right. left. split; [reflexivity|]. apply (W (fun _ _ => ~ lacks i "join_as" /\ value i "join_as_field_prefix" (fun v => ~ Str v))) in H. exact H.
      + right. right. left. right. right. right. split; [reflexivity|]. apply (W (fun _ _ => ~ lacks i "join_as" /\ value i "include_metrics" (fun v => ~ Bool_ v))) in H. exact H.
      + right. right. right. exists k. split; [reflexivity|]. apply (W (fun _ t => In k (map fst i) /\ ~ In k (known_id_keys t))) in H. destruct H as [I H]. split; [exact I|]. rewrite (id_keys t k M). exact H.
  Qed.

  (** *** Identifiers: the loop *)
  Lemma number_eq v : number v = as_number v.
  Proof. destruct v as [|[]| | | | |]; reflexivity. Qed.
  Lemma same_iff a b : same a b = true <-> eq_name a b.
  Proof.
    assert (Z : forall x y : yv, (match number x, number y with Some p, Some q => Z.eqb p q | _, _ => false end) = true <-> exists z, as_number x = Some z /\ as_number y = Some z).
    { intros x y. rewrite !number_eq. destruct (as_number x) as [p|], (as_number y) as [q|].
      - rewrite Z.eqb_eq. split; [intros ->; eauto|]. intros (z & X & Y). congruence.
      - split; [discriminate|]. intros (z & X & Y). discriminate Y.
      - split; [discriminate|]. intros (z & X & Y). discriminate X.
      - split; [discriminate|]. intros (z & X & Y). discriminate X. }
    unfold eq_name. destruct a as [| | | |s| |], b as [| | | |t| |]; cbn [same]; try rewrite Z; try rewrite String.eqb_eq.
    all: split; [intros H; try (left; split; reflexivity); try (right; left; subst; eexists; split; reflexivity); right; right; exact H
                |intros [[X Y]|[(u & X & Y)|H]]; try discriminate X; try discriminate Y; try exact H; try congruence; try reflexivity].
    all: destruct H as (z & X & Y); discriminate X.
  Qed.
  Lemma named_name v m : named v m -> id_name v = m.
  Proof. intros (i & -> & X). unfold id_name, get. cbn [id_dict]. rewrite X. reflexivity. Qed.
  Lemma shaped_named v : well_shaped v -> named v (id_name v).
  Proof. intros (i & -> & N & _). exists i. split; [reflexivity|]. unfold id_name, get. cbn [id_dict]. unfold lacks in N. destruct (assoc "name" i); [reflexivity|contradiction]. Qed.
  Lemma part_named v : good_part v -> named v (id_name v).
  Proof. intros (i & -> & N). exists i. split; [reflexivity|]. unfold id_name, get. cbn [id_dict]. unfold lacks in N. destruct (assoc "name" i); [reflexivity|contradiction]. Qed.
  Lemma parts_iff all i ps r : well_shaped (YDict i) -> Forall well_shaped all -> parts_errors all i = Ok ps ->
    (In r ps <-> exists parts j p, r = VIdPart (id_name (YDict i)) p /\ assoc "identifiers" i = Some (YList parts) /\ In j parts /\ named j p /\
                   forall w m', In w all -> named w m' -> ~ eq_name p m').
  Proof.
    rewrite well_shaped_dict. intros (_ & _ & G & _) W. unfold parts_errors, get. destruct G as [G|(parts & G & GP)].
    { unfold lacks in G. rewrite G. intros H. apply ok_inj in H. subst ps. split; [intros []|]. intros (parts & j & p & _ & X & _). congruence. }
    rewrite G. intros H. rewrite (concatM_in _ _ _ r H). rewrite Forall_forall in GP, W.
    assert (S : forall p, existsb (fun v => same p (id_name v)) all = false <-> forall w m', In w all -> named w m' -> ~ eq_name p m').
    { intros p. split.
      - intros X w m' I Y Q. apply named_name in Y. subst m'. apply same_iff in Q. assert (existsb (fun v => same p (id_name v)) all = true) by (apply existsb_exists; eauto). congruence.
      - intros X. destruct (existsb (fun v => same p (id_name v)) all) eqn:Q; [|reflexivity]. apply existsb_exists in Q. destruct Q as (w & I & Q). apply same_iff in Q.
        exfalso. exact (X w (id_name w) I (shaped_named w (W w I)) Q). }
    split.
    - intros (j & ys & I & Y & J). destruct (forallb (fun v => hashable (id_name v)) all && hashable (id_name j)); [|discriminate Y]. apply ok_inj in Y. subst ys.
      apply in_say in J. destruct J as [J ->]. rewrite negb_true_iff, S in J. exists parts, j, (id_name j). split; [reflexivity|]. split; [reflexivity|]. split; [exact I|]. split; [|exact J]. apply part_named. auto.
    - intros (parts' & j & p & -> & X & I & Y & Q). injection X as <-. destruct (concatM_ok_all _ _ _ H j I) as [ys Z]. exists j, ys. split; [exact I|]. split; [exact Z|].
      cbv beta in Z. destruct (forallb (fun v => hashable (id_name v)) all && hashable (id_name j)); [|discriminate Z]. apply ok_inj in Z. subst ys. apply named_name in Y. subst p. apply in_say.
      rewrite negb_true_iff, S. auto.
  Qed.
  Lemma loop_iff all l : Forall well_shaped all -> Forall well_shaped l -> forall used out r, ids_loop E n all used l = Ok out -> ~ In VIdQuery out ->
    (In r out <-> match r with
                  | VId m x => exists i, In (YDict i) l /\ assoc "name" i = Some m /\ id_breaks E n i x
                  | VIdTwice m => exists l1 v l2, l = l1 ++ v :: l2 /\ named v m /\ ((exists u, In u used /\ eq_name m u) \/ exists w m', In w l1 /\ named w m' /\ eq_name m m')
                  | VIdPart m p => exists i parts j, In (YDict i) l /\ assoc "name" i = Some m /\ assoc "identifiers" i = Some (YList parts) /\ In j parts /\ named j p /\
                                     forall w m', In w all -> named w m' -> ~ eq_name p m'
                  | _ => False
                  end).
  Proof.
    intros WA W. induction W as [|v l SV W IH]; intros used out r H NQ; cbn [ids_loop] in H.
    { apply ok_inj in H. subst out. split; [intros []|]. destruct r; try (intros []; fail).
      - intros (i & [] & _).
      - intros (l1 & w & l2 & X & _). destruct l1; discriminate X.
      - intros (i & parts & j & [] & _). }
    destruct (is_dict v) eqn:D; cycle 1. { destruct SV as (i & -> & _). discriminate D. }
    destruct v as [| | | | | |i]; try discriminate D. cbn [id_dict] in H.
    destruct (id_errors E n i) as [es|e] eqn:EI.
    2:{ destruct e; try discriminate H. apply ok_inj in H. subst out. exfalso. apply NQ. now left. }
    destruct (hashable (id_name (YDict i))); [|discriminate H]. apply bind_ok in H. destruct H as [ps [P H]]. apply bind_ok in H. destruct H as [rest [L H]]. apply ok_inj in H. subst out.
    assert (NQ' : ~ In VIdQuery rest) by (intros X; apply NQ; rewrite !in_app_iff; auto).
    pose proof (shaped_named _ SV) as NM. set (m0 := id_name (YDict i)) in *. assert (AN : assoc "name" i = Some m0) by (destruct NM as (i' & X & Y); injection X as <-; exact Y).
    rewrite !in_app_iff, in_map_iff, in_say, (parts_iff all i ps r SV WA P), (IH _ rest r L NQ').
    assert (X1 : existsb (same m0) used = true <-> exists u, In u used /\ eq_name m0 u).
    { rewrite existsb_exists. split; intros (u & I & Q); exists u; apply same_iff in Q || rewrite same_iff; auto. }
    rewrite X1. clear X1. split.
    - intros [(x & <- & I)|[[H ->]|[(parts & j & p & -> & H)|H]]].
      + exists i. split; [now left|]. split; [exact AN|]. apply (one_id i es x SV EI). exact I.
      + exists [], (YDict i), l. split; [reflexivity|]. split; [exact NM|]. left. exact H.
      + exists i, parts, j. split; [now left|]. split; [exact AN|]. exact H.
      + destruct r; try (exfalso; exact H).
        * destruct H as (i' & I & H). exists i'. split; [now right|exact H].
        * destruct H as (l1 & w & l2 & -> & NW & H). exists (YDict i :: l1), w, l2. split; [reflexivity|]. split; [exact NW|]. destruct H as [(u & I & Q)|(w' & m' & I & H)].
          -- apply in_app_iff in I. destruct I as [I|[<-|[]]]; [left; eauto|]. right. exists (YDict i), m0. split; [now left|]. auto.
          -- right. exists w', m'. split; [now right|exact H].
        * destruct H as (i' & parts & j & I & H). exists i', parts, j. split; [now right|exact H].
    - destruct r; try (intros []; fail).
      + intros (i' & [X|I] & A & H).
        * injection X as <-. assert (name = m0) by congruence. subst name. left. exists r. split; [reflexivity|]. apply (one_id i es r SV EI). exact H.
        * right. right. right. eauto.
      + intros (l1 & w & l2 & X & NW & H). destruct l1 as [|c l1]; cbn [app] in X; injection X as <- ->.
        * right. left. apply named_name in NW. fold m0 in NW. subst name. split; [|reflexivity]. destruct H as [H|(w & m' & [] & _)]. exact H.
        * right. right. right. exists l1, w, l2. split; [reflexivity|]. split; [exact NW|]. destruct H as [(u & I & Q)|(w' & m' & [<-|I] & NW' & Q)].
          -- left. exists u. rewrite in_app_iff. auto.
          -- left. exists m0. apply named_name in NW'. fold m0 in NW'. subst m'. rewrite in_app_iff. split; [right; now left|exact Q].
          -- right. eauto.
      + intros (i' & parts & j & [X|I] & A & H).
        * injection X as <-. assert (name = m0) by congruence. subst name. right. right. left. exists parts, j, part. auto.
        * right. right. right. eauto 6.
  Qed.
  Lemma ids_iff d out r : ids_errors E n d = Ok out -> ~ In VIdQuery out -> (In r out <-> ids_break E n d r).
  Proof.
    unfold ids_errors, identifiers, get. destruct (assoc "identifiers" d) as [v|] eqn:AI.
    - destruct (is_list v) eqn:L.
      + destruct v as [| | | | |l|]; try discriminate L. destruct (first_some id_fault l) as [f|] eqn:F.
        * apply first_some_some in F. destruct F as (l1 & x & l2 & -> & N & X). apply fault_some in X. assert (W : Forall well_shaped l1) by (revert N; apply Forall_impl; intros a; apply fault_none).
          intros H _. apply ok_inj in H. subst out. cbn [In]. split.
          -- intros [<-|[]]. assert (f <> FNotList) by (intros ->; destruct X as [[X _]|(i & _ & [])]; discriminate X).
             cbn [ids_break]. destruct f; try congruence; exists l1, x, l2; auto.
          -- intros H. left. f_equal.
             assert (U : forall l1' y l2' g, l1 ++ x :: l2 = l1' ++ y :: l2' -> Forall well_shaped l1' -> shape y g -> f = g).
             { intros l1' y l2' g Q W' Y. apply fault_some in X, Y. assert (S : first_some id_fault (l1 ++ x :: l2) = Some f) by (apply first_some_some; exists l1, x, l2; auto).
               assert (T : first_some id_fault (l1' ++ y :: l2') = Some g) by (apply first_some_some; exists l1', y, l2'; split; [reflexivity|]; split; [|exact Y]; revert W'; apply Forall_impl; intros a; apply fault_none).
               rewrite Q in S. congruence. }
             assert (NW : ~ Forall well_shaped (l1 ++ x :: l2)).
             { intros Q. apply Forall_app in Q. destruct Q as [_ Q]. inversion Q as [|? ? Q1 _]. subst. apply fault_none in Q1. apply fault_some in X. congruence. }
             cbn [ids_break] in H. destruct r; try (exfalso; exact H).
             ++ destruct f0; try (destruct H as (l1' & y & l2' & Q & W' & Y); rewrite AI in Q; injection Q as Q; f_equal; eapply U; eassumption).
                destruct H as (w & Q & Y). rewrite AI in Q. injection Q as <-. exfalso. apply Y. eexists. reflexivity.
             ++ destruct H as (l & i & Q & W' & _). rewrite AI in Q. injection Q as <-. contradiction.
             ++ destruct H as (l & y & l' & Q & W' & _). rewrite AI in Q. injection Q as Q. rewrite Q in NW. contradiction.
             ++ destruct H as (l & i & ? & ? & Q & W' & _). rewrite AI in Q. injection Q as <-. contradiction.
        * apply first_some_none in F. assert (W : Forall well_shaped l) by (revert F; apply Forall_impl; intros a; apply fault_none).
          intros H NQ. rewrite (loop_iff l l W W [] out r H NQ). unfold ids_break. rewrite AI. split.
          -- destruct r; try (intros []; fail).
             ++ intros (i & I & H'). exists l, i. auto.
             ++ intros (l1 & v & l2 & -> & NV & [(u & [] & _)|H']). exists l1, v, l2. auto.
             ++ intros (i & parts & j & I & H'). exists l, i, parts, j. auto.
          -- destruct r; try (intros []; fail).
             ++ intros H'. exfalso.
                assert (B : forall l1 y l2 g, Some (YList l) = Some (YList (l1 ++ y :: l2)) -> shape y g -> False).
                { intros l1 y l2 g Q Y. injection Q as ->. apply Forall_app in W. destruct W as [_ W]. inversion W as [|? ? W1 _]. subst. apply fault_none in W1. apply fault_some in Y. congruence. }
                destruct f; try (destruct H' as (l1 & y & l2 & Q & _ & Y); exact (B _ _ _ _ Q Y)). destruct H' as (w & Q & Y). rewrite AI in Q. injection Q as <-. apply Y. eexists. reflexivity.
             ++ intros (l' & i & Q & _ & H'). injection Q as <-. eauto.
             ++ intros (l1 & v & l2 & Q & _ & NV & H'). injection Q as ->. exists l1, v, l2. auto.
             ++ intros (l' & i & parts & j & Q & _ & H'). injection Q as <-. eauto 6.
      + intros H _. assert (out = [VIdFault FNotList]) by (destruct v; try discriminate L; apply ok_inj in H; auto). subst out. apply list_iff in L. cbn [In]. split.
        * intros [<-|[]]. exists v. auto.
        * unfold ids_break. rewrite AI. destruct r; try (intros []; fail); intros H'; try (destruct f; try (left; reflexivity)); open_or H'; exfalso;
            match goal with K : Some v = Some (YList _) |- _ => injection K as -> end; apply L; eexists; reflexivity.
    - intros H _. cbn [ids_loop] in H. apply ok_inj in H. subst out. split; [intros []|]. unfold ids_break, value. rewrite AI.
      destruct r; try (intros []; fail); intros H'; try destruct f; open_or H'; discriminate.
  Qed.
End Parts.
