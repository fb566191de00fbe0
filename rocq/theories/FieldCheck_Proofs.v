(** The checks of a field against their specification. *)
From Coq Require Import List String ZArith Bool Lia.
From Verif Require Import PyBase PyStr PyRefs PyReplace PyList Names_Model Names_Props FieldCheck_Model FieldCheck_Spec.
Import ListNotations.
Local Open Scope string_scope.
Local Open Scope list_scope.

Lemma ok_inj {A} (x y : A) : Ok x = Ok y -> x = y. Proof. congruence. Qed.
Lemma in_chk b (r x : rule) : In r (chk b x) <-> b = true /\ r = x.
Proof. destruct b; cbn; intuition congruence. Qed.
Lemma truthy_filled v : truthy v = true <-> Filled v.
Proof.
  unfold Filled. destruct v as [|b|z|b|s|l|m]; cbn [truthy].
  - split; [discriminate|]. intros H. exfalso. apply H. left. reflexivity.
  - destruct b; split; intros H; try discriminate H; try reflexivity; [|exfalso; apply H; cbn; tauto]. cbn. intuition discriminate.
  - destruct (Z.eqb_spec z 0) as [->|NE]; cbn [negb]; split; intros H; try discriminate H; try reflexivity; [exfalso; apply H; cbn; tauto|]. cbn. intuition congruence.
  - destruct b; split; intros H; try discriminate H; try reflexivity; [|exfalso; apply H; cbn; tauto]. cbn. intuition discriminate.
  - destruct (String.eqb_spec s "") as [->|NE]; cbn [negb]; split; intros H; try discriminate H; try reflexivity; [exfalso; apply H; cbn; tauto|]. cbn. intuition congruence.
  - destruct l; split; intros H; try discriminate H; try reflexivity; [exfalso; apply H; cbn; tauto|]. cbn. intuition congruence.
  - destruct m; split; intros H; try discriminate H; try reflexivity; [exfalso; apply H; cbn; tauto|]. cbn. intuition congruence.
Qed.
Lemma truthy_not v : truthy v = false <-> ~ Filled v.
Proof. rewrite <- truthy_filled. destruct (truthy v); intuition congruence. Qed.
Lemma str_iff v : is_str v = false <-> ~ Str v.
Proof. unfold Str. destruct v; cbn; split; intros H; try discriminate H; try reflexivity; try (intros [? X]; discriminate X). exfalso. apply H. eauto. Qed.
Lemma bool_iff v : is_bool v = false <-> ~ Bool_ v.
Proof. unfold Bool_. destruct v; cbn; split; intros H; try discriminate H; try reflexivity; try (intros [? X]; discriminate X). exfalso. apply H. eauto. Qed.
Lemma list_iff v : is_list v = false <-> ~ List_ v.
Proof. unfold List_. destruct v; cbn; split; intros H; try discriminate H; try reflexivity; try (intros [? X]; discriminate X). exfalso. apply H. eauto. Qed.
Lemma dict_iff v : is_dict v = false <-> ~ Dict v.
Proof. unfold Dict. destruct v; cbn; split; intros H; try discriminate H; try reflexivity; try (intros [? X]; discriminate X). exfalso. apply H. eauto. Qed.
Lemma int_iff v : is_int v = false <-> ~ Int v.
Proof.
  unfold Int. destruct v; cbn; split; intros H; try discriminate H; try reflexivity; try (intros [[? X]|[? X]]; discriminate X); exfalso; apply H; eauto.
Qed.
Lemma bad_iff k p (P : yv -> Prop) d : (forall v, p v = false <-> ~ P v) -> (bad k p d = true <-> value d k (fun v => ~ P v)).
Proof.
  intros HP. unfold bad, value, get. destruct (assoc k d) as [v|].
  - rewrite negb_true_iff, HP. split; [eauto|]. intros (w & E & X). injection E as <-. exact X.
  - split; [discriminate|]. intros (w & E & _). discriminate E.
Qed.
Lemma has_false k d : has k d = false <-> lacks d k.
Proof. unfold has, lacks, get. destruct (assoc k d); split; congruence. Qed.
Lemma has_true k d : has k d = true <-> ~ lacks d k.
Proof. rewrite <- has_false. destruct (has k d); intuition congruence. Qed.
Lemma on_true k d : on k d = true <-> value d k Filled.
Proof.
  unfold on, value, get. destruct (assoc k d) as [v|]; [rewrite truthy_filled; split; [eauto|]; intros (w & E & X); injection E as <-; exact X|].
  split; [discriminate|]. intros (w & E & _). discriminate E.
Qed.
Lemma on_false k d : on k d = false <-> ~ value d k Filled.
Proof. rewrite <- on_true. destruct (on k d); intuition congruence. Qed.
Lemma eq_str_get k d s : eq_str (get k d) s = true <-> is_text d k s.
Proof.
  unfold eq_str, get, is_text. destruct (assoc k d) as [[]|]; split; intros H; try discriminate H.
  - apply String.eqb_eq in H. congruence.
  - injection H as ->. apply String.eqb_refl.
Qed.
Lemma eq_str_not k d s : eq_str (get k d) s = false <-> ~ is_text d k s.
Proof. rewrite <- eq_str_get. destruct (eq_str _ _); intuition congruence. Qed.
Lemma str_in_oneof v l : str_in (Some v) l = true <-> OneOf l v.
Proof.
  unfold OneOf. destruct v; cbn [str_in]; split; intros H; try discriminate H; try (destruct H as (t & X & _); discriminate X).
  - exists s. split; [reflexivity|]. apply mem_In. exact H.
  - destruct H as (t & X & H). injection X as ->. apply mem_In. exact H.
Qed.
Lemma str_in_not v l : str_in (Some v) l = false <-> ~ OneOf l v.
Proof. rewrite <- str_in_oneof. destruct (str_in _ _); intuition congruence. Qed.
Lemma str_in_get k d l : str_in (get k d) l = true <-> value d k (OneOf l).
Proof.
  unfold get, value. destruct (assoc k d) as [v|].
  - rewrite str_in_oneof. split; [eauto|]. intros (w & E & X). injection E as <-. exact X.
  - split; [discriminate|]. intros (w & E & _). discriminate E.
Qed.
Lemma str_in_get_not k d l : str_in (get k d) l = false <-> ~ value d k (OneOf l).
Proof. rewrite <- str_in_get. destruct (str_in _ _); intuition congruence. Qed.
Lemma in_elements p (P : yv -> Prop) f l r : (forall v, p v = false <-> ~ P v) -> (In r (elements p f l) <-> exists v, In v l /\ ~ P v /\ r = f v).
Proof.
  intros HP. unfold elements. rewrite in_flat_map. split.
  - intros (v & I & H). apply in_chk in H. destruct H as [H ->]. apply negb_true_iff, HP in H. eauto.
  - intros (v & I & H & ->). exists v. split; [exact I|]. apply in_chk. split; [|reflexivity]. apply negb_true_iff, HP. exact H.
Qed.
Lemma in_listed k top p (P : yv -> Prop) f d r : (forall v, p v = false <-> ~ P v) ->
  (In r (listed k top p f d) <-> (r = top /\ value d k (fun v => ~ List_ v)) \/ (exists v, element d k v /\ ~ P v /\ r = f v)).
Proof.
  intros HP. unfold listed, value, element, get. destruct (assoc k d) as [v|]; cycle 1.
  { split; [intros []|]. intros [(_ & v & X & _)|(v & (l & X & _) & _)]; discriminate X. }
  assert (NL : forall w, ~ List_ w -> v = w -> (In r [top] <-> r = top)) by (intros; cbn; intuition congruence).
  destruct v as [| | | | |l|].
  6:{ rewrite (in_elements p P f l r HP). split.
      - intros (v & I & H & ->). right. exists v. split; [eauto|]. auto.
      - intros [(_ & v & X & Y)|(v & (l' & X & I) & H & ->)].
        + injection X as <-. exfalso. apply Y. exists l. reflexivity.
        + injection X as <-. eauto. }
  all: cbn [In]; split; [intros [<-|[]]; left; split; [reflexivity|]; eexists; split; [reflexivity|]; intros [? X]; discriminate X
                        | intros [(-> & _)|(v & (l & X & _) & _)]; [left; reflexivity | discriminate X]].
Qed.
Lemma in_keys (f : string -> rule) ok (d : ydict) r :
  In r (map f (List.filter (fun k => negb (mem k ok)) (map fst d))) <-> exists k, r = f k /\ In k (map fst d) /\ ~ In k ok.
Proof.
  rewrite in_map_iff. split.
  - intros (k & <- & I). apply filter_In in I. destruct I as [I N]. apply negb_true_iff, mem_false in N. eauto.
  - intros (k & -> & I & N). exists k. split; [reflexivity|]. apply filter_In. split; [exact I|]. apply negb_true_iff, mem_false. exact N.
Qed.
Lemma concatM_in {A B} (f : A -> res (list B)) l out x : concatM f l = Ok out -> (In x out <-> exists a ys, In a l /\ f a = Ok ys /\ In x ys).
Proof.
  revert out. induction l as [|a l IH]; intros out H; cbn [concatM] in H.
  { injection H as <-. split; [intros []|]. intros (a & ys & [] & _). }
  apply bind_ok in H. destruct H as [ys [H1 H]]. apply bind_ok in H. destruct H as [zs [H2 H]]. injection H as <-.
  rewrite in_app_iff, (IH zs H2). split.
  - intros [I|(b & ws & I & X)]; [exists a, ys; cbn; auto|]. exists b, ws. cbn. tauto.
  - intros (b & ws & [<-|I] & X & Y); [left; congruence|]. right. eauto.
Qed.

(** Qualifying *)
Lemma set_key_get k v d k' : get k' (set_key k v d) = if String.eqb k' k then Some v else get k' d.
Proof.
  unfold get. induction d as [|[a w] d IH]; cbn [set_key assoc].
  - destruct (String.eqb k' k); reflexivity.
  - destruct (String.eqb_spec k a) as [->|NE]; cbn [assoc].
    + destruct (String.eqb k' a); reflexivity.
    + rewrite IH. destruct (String.eqb_spec k' a) as [->|]; [|reflexivity]. destruct (String.eqb_spec a k); congruence.
Qed.
Lemma set_key_keys k v d : assoc k d <> None -> map fst (set_key k v d) = map fst d.
Proof.
  induction d as [|[a w] d IH]; cbn [set_key assoc map]; [congruence|]. destruct (String.eqb k a); [reflexivity|].
  intros H. cbn [map]. rewrite (IH H). reflexivity.
Qed.
Lemma set_key_same k v d : get k d = Some v -> set_key k v d = d.
Proof.
  unfold get. induction d as [|[a w] d IH]; cbn [set_key assoc]; [discriminate|]. destruct (String.eqb k a) eqn:K; [congruence|].
  intros H. rewrite (IH H). reflexivity.
Qed.

Section Proofs.
  Variable E : fenv.
  Variable fuel : nat.
  Variable n : string.

  Lemma qualify_full s : qualify E s = full E s. Proof. reflexivity. Qed.
  Lemma qualify_filter_keys f : map fst (qualify_filter E f) = map fst f.
  Proof. unfold qualify_filter. destruct (get "field" f) as [[]|] eqn:G; try reflexivity. apply set_key_keys. unfold get in G. congruence. Qed.
  Lemma qualify_filter_get k f : k <> "field" -> get k (qualify_filter E f) = get k f.
  Proof.
    intros K. unfold qualify_filter. destruct (get "field" f) as [[]|]; try reflexivity. rewrite set_key_get.
    destruct (String.eqb_spec k "field"); [congruence|reflexivity].
  Qed.
  Lemma qualify_filter_field f : get "field" (qualify_filter E f) = match get "field" f with Some (YStr s) => Some (YStr (full E s)) | v => v end.
  Proof. unfold qualify_filter. destruct (get "field" f) as [[]|] eqn:G; try exact G. rewrite set_key_get. reflexivity. Qed.
  Lemma qualify_filters_get k d : k <> "filters" -> get k (qualify_filters E d) = get k d.
  Proof.
    intros K. unfold qualify_filters. destruct (filters d) as [| | | | |l|]; try reflexivity. destruct (has "filters" d && _); [|reflexivity].
    rewrite set_key_get. destruct (String.eqb_spec k "filters"); [congruence|reflexivity].
  Qed.
  Lemma qualify_filters_keys d : map fst (qualify_filters E d) = map fst d.
  Proof.
    unfold qualify_filters. destruct (filters d) as [| | | | |l|]; try reflexivity. destruct (has "filters" d && _) eqn:H; [|reflexivity].
    apply set_key_keys. apply andb_true_iff in H. destruct H as [H _]. apply has_true in H. exact H.
  Qed.

  (** *** The common rules *)
  Definition common_part (ft : string) (d : ydict) : list rule :=
    (if valid_name n then chk (mem n (e_reserved E) && negb (String.eqb ft "dimension_group")) RReserved else [RName])
    ++ chk (negb (mem ft field_type_options)) RFieldType
    ++ chk (negb (has "type" d)) RNoType
    ++ chk (label_bad d) RLabel
    ++ chk (bad "group_label" is_str d) RGroupLabel
    ++ chk (bad "hidden" is_bool d) RHidden
    ++ chk (bad "description" is_str d) RDescription
    ++ chk (too_long "description" d) RDescriptionLong
    ++ chk (bad "zoe_description" is_str d) RZoe
    ++ chk (too_long "zoe_description" d) RZoeLong
    ++ chk (has "value_format_name" d && negb (str_in (get "value_format_name" d) VALID_VALUE_FORMAT_NAMES)) RValueFormat
    ++ listed "synonyms" RSynonyms is_str RSynonym d
    ++ chk (bad "extra" is_dict d) RExtra
    ++ grants_errors E d
    ++ map RProperty (List.filter (fun k => negb (mem k (valid_properties ft))) (map fst d)).

  Lemma in_name ft r : In r (if valid_name n then chk (mem n (e_reserved E) && negb (String.eqb ft "dimension_group")) RReserved else [RName]) <->
    (r = RName /\ ~ good_name n) \/ (r = RReserved /\ good_name n /\ In n (e_reserved E) /\ ft <> "dimension_group").
  Proof.
    unfold good_name. rewrite <- C40_valid_names. destruct (valid_name n).
    - rewrite in_chk, andb_true_iff, negb_true_iff, mem_In, String.eqb_neq. intuition.
    - cbn [In]. intuition congruence.
  Qed.
  Lemma too_long_iff k d : too_long k d = true <-> exists s, is_text d k s /\ 512 < String.length s.
  Proof.
    unfold too_long, is_text, get. destruct (assoc k d) as [[]|]; try (split; [discriminate|]; intros (t & X & _); discriminate X).
    rewrite Nat.ltb_lt. unfold description_max_chars. split; [eauto|]. intros (t & X & H). injection X as <-. exact H.
  Qed.
  Lemma has_oneof k d l : has k d && negb (str_in (get k d) l) = true <-> value d k (fun v => ~ OneOf l v).
  Proof.
    unfold has, value, get. destruct (assoc k d) as [v|].
    - cbn [andb]. rewrite negb_true_iff, str_in_not. split; [eauto|]. intros (w & X & H). injection X as <-. exact H.
    - split; [discriminate|]. intros (w & X & _). discriminate X.
  Qed.
  Lemma in_grants d r : In r (grants_errors E d) <->
    (r = RGrants /\ value d "required_access_grants" (fun v => ~ List_ v))
    \/ (exists v, element d "required_access_grants" v /\ ~ Str v /\ r = RGrantType v)
    \/ (exists g, element d "required_access_grants" (YStr g) /\ ~ In g (e_grants E) /\ r = RGrant g).
  Proof.
    unfold grants_errors, value, element, get. destruct (assoc "required_access_grants" d) as [v|]; cycle 1.
    { split; [intros []|]. intros [(_ & v & X & _)|[(v & (l & X & _) & _)|(g & (l & X & _) & _)]]; discriminate X. }
    destruct v as [| | | | |l|].
    6:{ rewrite in_flat_map. split.
        - intros (v & I & H). right. destruct v; cbn [In] in H.
          5:{ apply in_chk in H. destruct H as [H ->]. apply negb_true_iff, mem_false in H. right. exists s. eauto. }
          all: destruct H as [<-|[]]; left; eexists; (split; [eauto|]); (split; [|reflexivity]); intros [? X]; discriminate X.
        - intros [(_ & v & X & Y)|[(v & (l' & X & I) & H & ->)|(g & (l' & X & I) & H & ->)]]; injection X as <-.
          + exfalso. apply Y. eexists. reflexivity.
          + exists v. split; [exact I|]. destruct v; cbn [In]; auto. exfalso. apply H. eexists. reflexivity.
          + exists (YStr g). split; [exact I|]. cbn. rewrite in_chk, negb_true_iff, mem_false. auto. }
    all: cbn [In]; split; [intros [<-|[]]; left; (split; [reflexivity|]); eexists; (split; [reflexivity|]); intros [? X]; discriminate X
                          | intros [(-> & _)|[(v & (l & X & _) & _)|(g & (l & X & _) & _)]]; [left; reflexivity | discriminate X | discriminate X]].
  Qed.
  Lemma ftype_text d s : s <> "?" -> (ftype d = s <-> is_text d "field_type" s).
  Proof.
    intros NE. unfold ftype, is_text, get. destruct (assoc "field_type" d) as [[]|]; split; intros H; try congruence.
  Qed.
  Lemma ftype_options d : mem (ftype d) field_type_options = false <-> ~ value d "field_type" (OneOf ["dimension"; "dimension_group"; "measure"]).
  Proof.
    rewrite mem_false. unfold ftype, value, OneOf, get. destruct (assoc "field_type" d) as [v|].
    - destruct v; (split; [intros H (w & X & t & Y & Z); injection X as <-; try discriminate Y; try (injection Y as <-; apply H; exact Z)
                          | intros H I; try (cbn in I; intuition discriminate)]).
      apply H. eexists. split; [reflexivity|]. eauto.
    - split; [intros _ (w & X & _); discriminate X|]. intros _ I. cbn in I. intuition discriminate.
  Qed.
  Definition tag (r : rule) : N :=
    match r with
    | RName => 0 | RReserved => 1 | RFieldType => 2 | RNoType => 3 | RLabel => 4 | RGroupLabel => 5 | RHidden => 6 | RDescription => 7 | RDescriptionLong => 8 | RZoe => 9 | RZoeLong => 10 | RValueFormat => 11 | RSynonyms => 12 | RSynonym _ => 13 | RFilters => 14 | RFilter _ => 15 | RFilterSelf => 16 | RFilterNoField => 17 | RFilterField _ => 18 | RFilterNoValue => 19 | RFilterValue _ => 20 | RFilterKey _ => 21 | RExtra => 22 | RGrants => 23 | RGrantType _ => 24 | RGrant _ => 25 | RCanonType => 26 | RCanonKind => 27 | RCanonMissing => 28 | RDimType => 29 | RSearchableMissing => 30 | RPrimaryKey => 31 | RSql => 32 | RCase => 33 | RSelfRef => 34 | RLooker => 35 | RBadRef _ => 36 | RTags => 37 | RTag _ => 38 | RDrill => 39 | RDrillField _ => 40 | RSearchable => 41 | RTiersMissing => 42 | RTiers => 43 | RTier _ => 44 | RLink => 45 | RGroupType => 46 | RTimeIntervals => 47 | RTimeframes => 48 | RNoTimeframes => 49 | RTimeframe _ => 50 | RTimeSql => 51 | RConvertTz => 52 | RConvertTimezone => 53 | RDatatype => 54 | RDurTimeframes => 55 | RIntervals => 56 | RNoIntervals => 57 | RInterval _ => 58 | RDurSql => 59 | RSqlStart => 60 | RSqlEnd => 61 | RMeasureType => 62 | RMeasureKey => 63 | RNoDate _ => 64 | RNoSql => 65 | RMeasureSql => 66 | RMergedResult => 67 | RCumNoMeasure => 68 | RCumMeasureType => 69 | RCumNotMeasure => 70 | RCumUnreachable => 71 | RCumWhere => 72 | RUpdateWhere => 73 | RNoDistinctKey => 74 | RDistinctKey => 75 | RDistinctRef _ => 76 | RNad => 77 | RNadName => 78 | RNadKind => 79 | RNadMissing => 80 | RWindow => 81 | RWindowAware => 82 | RNullsEqual => 83 | RGroupings => 84 | RGroupingKind _ => 85 | RGroupingMissing _ => 86 | RNadKey _ => 87 | RProperty _ => 88
    end%N.
  Lemma clash a b : N.eqb (tag a) (tag b) = false -> a = b -> False.
  Proof. intros H ->. rewrite N.eqb_refl in H. discriminate H. Qed.
  Ltac spread H := repeat match type of H with _ \/ _ => destruct H as [H|H] end;
      repeat match goal with
             | H : exists _, _ |- _ => destruct H
             | H : _ /\ _ |- _ => destruct H
             | H : _ \/ _ |- _ => destruct H
             | H : ?x = ?y |- _ => match type of x with rule => first [exfalso; exact (clash x y eq_refl H) | injection H as <- | injection H as <- <- | clear H] end
             end.

  (** Names for the texts of a goal, to keep proofs small *)
  Ltac abstract_values := repeat match goal with
      | |- context [value ?d ?k ?p] => generalize (value d k p); intro
      | |- context [is_text ?d ?k] => generalize (is_text d k); intro
      | |- context [lacks ?d ?k] => generalize (lacks d k); intro
      | |- context [element ?d ?k] => generalize (element d k); intro
      end.
  Lemma same_members (A B : list string) : forallb (fun x => mem x B) A && forallb (fun x => mem x A) B = true -> forall k, In k A <-> In k B.
  Proof.
    rewrite andb_true_iff, !forallb_forall. intros [X Y] k. split; intros I; [apply mem_In, X|apply mem_In, Y]; exact I.
  Qed.
  Lemma same_keys ft k : In k (valid_properties ft) <-> In k (known_keys ft).
  Proof.
    apply same_members. destruct (String.eqb_spec ft "dimension") as [->|A]; [reflexivity|]. destruct (String.eqb_spec ft "dimension_group") as [->|B]; [reflexivity|].
    destruct (String.eqb_spec ft "measure") as [->|C]; [reflexivity|]. apply String.eqb_neq in A, B, C. unfold valid_properties, known_keys. cbn [mem existsb]. rewrite A, B, C. reflexivity.
  Qed.
  Lemma in_known ft (d : ydict) r :
    In r (map RProperty (List.filter (fun k => negb (mem k (valid_properties ft))) (map fst d))) <-> exists k, r = RProperty k /\ In k (map fst d) /\ ~ In k (known_keys ft).
  Proof. rewrite in_keys. split; intros (k & X & Y & Z); exists k; rewrite same_keys in *; auto. Qed.
  Lemma common_iff d r : In r (common_part (ftype d) d) <-> common_breaks E n d r.
  Proof.
    unfold common_part. rewrite !in_app_iff, in_name, !in_chk, (in_listed _ _ _ Str) by apply str_iff. rewrite in_grants, in_known. change VALID_VALUE_FORMAT_NAMES with format_names.
    unfold label_bad. rewrite andb_true_iff, !negb_true_iff, on_false, has_oneof, !too_long_iff, has_false, ftype_options.
    rewrite !(bad_iff _ is_str Str) by apply str_iff. rewrite !(bad_iff _ is_bool Bool_) by apply bool_iff. rewrite !(bad_iff _ is_dict Dict) by apply dict_iff.
    assert (G : ftype d <> "dimension_group" <-> ~ is_text d "field_type" "dimension_group") by (rewrite <- ftype_text by discriminate; reflexivity).
    rewrite G. clear G. unfold common_breaks.
    abstract_values. generalize 512. intros most. destruct r; (split; intros H); try (exfalso; exact H); spread H; try solve [eauto 8];
      repeat (first [left; solve [eauto 8] | right]); eauto 8.
  Qed.

  (** *** Filters *)
  Lemma one_filter f out r : filter_errors E n (qualify_filter E f) = Ok out ->
    (In r out <-> match r with
                  | RFilterSelf => exists s, is_text f "field" s /\ full E s = (e_view E ++ "." ++ n)%string
                  | RFilterNoField => lacks f "field"
                  | RFilterField q => exists s, is_text f "field" s /\ q = full E s /\ e_get_field E q = Err AccessDenied
                  | RFilterNoValue => lacks f "value"
                  | RFilterValue v => assoc "value" f = Some v /\ ~ Str v /\ (lacks f "field" \/ e_readable E (qualify_filter E f) = false)
                  | RFilterKey k => In k (map fst f) /\ k <> "field" /\ k <> "value"
                  | _ => False
                  end).
  Proof.
    unfold filter_errors. intros H. apply bind_ok in H. destruct H as [a [A H]]. apply ok_inj in H. rewrite <- H. clear H out.
    assert (HF : has "field" (qualify_filter E f) = has "field" f) by (unfold has; rewrite qualify_filter_field; destruct (get "field" f) as [[]|]; reflexivity).
    rewrite HF, (qualify_filter_get "value" f) by discriminate. rewrite qualify_filter_keys.
    rewrite qualify_filter_field in *. rewrite !in_app_iff, in_chk. rewrite in_keys.
    set (own := match _ with Some (YStr s) => _ | _ => false end).
    assert (OWN : own = true <-> exists s, is_text f "field" s /\ full E s = (e_view E ++ "." ++ n)%string).
    { unfold own, is_text, get. destruct (assoc "field" f) as [[]|]; try (split; [discriminate|]; intros (t & X & _); discriminate X).
      rewrite String.eqb_eq. split; [eauto|]. intros (t & X & Y). injection X as <-. exact Y. }
    assert (FA : In r a <-> (r = RFilterNoField /\ lacks f "field") \/ (exists s, r = RFilterField (full E s) /\ is_text f "field" s /\ e_get_field E (full E s) = Err AccessDenied)).
    { unfold lacks, is_text. clear own OWN. unfold get in *. destruct (assoc "field" f) as [[]|] eqn:G; try discriminate A.
      - destruct (e_get_field E (full E s)) as [i|x] eqn:X.
        + injection A as <-. split; [intros []|]. intros [(_ & Y)|(t & _ & Y & Z)]; [discriminate Y|]. injection Y as <-. congruence.
        + destruct x; try discriminate A. injection A as <-. cbn [In]. split.
          * intros [<-|[]]. right. eauto.
          * intros [(_ & Y)|(t & -> & Y & Z)]; [discriminate Y|]. injection Y as <-. auto.
      - injection A as <-. cbn [In]. split; [intros [<-|[]]; auto|]. intros [(-> & _)|(t & _ & Y & _)]; [auto|discriminate Y]. }
    rewrite FA. clear FA A.
    assert (VB : In r (match get "value" f with
             | None => [RFilterNoValue]
             | Some (YStr _) => []
             | Some v => chk (negb (has "field" f && e_readable E (qualify_filter E f))) (RFilterValue v)
             end) <-> (r = RFilterNoValue /\ lacks f "value") \/
               (exists v, r = RFilterValue v /\ assoc "value" f = Some v /\ ~ Str v /\ (lacks f "field" \/ e_readable E (qualify_filter E f) = false))).
    { unfold get. destruct (assoc "value" f) as [v|] eqn:VF; cycle 1.
      { unfold lacks at 1. rewrite VF. cbn [In]. split; [intros [<-|[]]; auto|]. intros [(-> & _)|(v & _ & X & _)]; [auto|discriminate X]. }
      unfold lacks at 1. rewrite VF.
      assert (C : negb (has "field" f && e_readable E (qualify_filter E f)) = true <-> lacks f "field" \/ e_readable E (qualify_filter E f) = false)
        by (rewrite <- has_false; destruct (has "field" f), (e_readable E (qualify_filter E f)); cbn; intuition congruence).
      destruct v; [| | | |split; [intros []|]; intros [(_ & X)|(v & _ & X & Y & _)]; [discriminate X|]; injection X as <-; exfalso; apply Y; eexists; reflexivity| |].
      all: rewrite in_chk, C; split; [intros (X & ->); right; eexists; split; [reflexivity|]; split; [reflexivity|]; split; [intros [? Y]; discriminate Y | exact X]
                                     | intros [(_ & X)|(v & -> & X & Y & Z)]; [discriminate X|]; injection X as <-; auto]. }
    rewrite VB, OWN. clear VB OWN own HF.
    destruct r; (split; intros H); try (exfalso; exact H);
      repeat match type of H with _ \/ _ => destruct H as [H|H] end;
      repeat match goal with H : exists _, _ |- _ => destruct H | H : _ /\ _ |- _ => destruct H end; try discriminate; try congruence;
      repeat match goal with H : ?c _ = ?c _ |- _ => injection H as <- end; auto 30; eauto 30.
    - match goal with H : RFilterField _ = RFilterField _ |- _ => injection H as -> end. eauto.
    - subst. right. left. right. eauto 10.
    - cbn in *. intuition congruence.
    - right. right. right. exists k. cbn. intuition congruence.
  Qed.
  Lemma filters_iff d out r : filters_errors E n d = Ok out -> (In r out <-> filter_breaks E n d r).
  Proof.
    unfold filters_errors, filters. intros H.
    assert (EL : forall v, element d "filters" v -> exists l, get "filters" d = Some (YList l) /\ In v l) by (intros v X; exact X).
    destruct (has "filters" d) eqn:HF; cycle 1.
    { injection H as <-. apply has_false in HF. unfold lacks in HF. split; [intros []|]. intros X. exfalso.
      unfold filter_breaks, filter_of, element, value in X. destruct r; try exact X; repeat match goal with H : exists _, _ |- _ => destruct H | H : _ /\ _ |- _ => destruct H end; congruence. }
    unfold has in HF. destruct (get "filters" d) as [v|] eqn:G; [|discriminate HF]. clear HF. unfold on in H. rewrite G in H.
    assert (FO : forall w, element d "filters" w <-> exists l, v = YList l /\ In w l).
    { intros w. unfold element. unfold get in G. rewrite G. split; intros (l & X & I); exists l; split; congruence. }
    assert (VV : forall P, value d "filters" P <-> P v).
    { intros P. unfold value. unfold get in G. rewrite G. split; [intros (w & X & Y); congruence|eauto]. }
    destruct v as [|b|z|b|s|l|m].
    all: try (match type of H with context [truthy ?w] => destruct (truthy w) eqn:T end).
    all: cbn [concatM] in H.
    all: try (injection H as <-; unfold filter_breaks, filter_of; destruct r; cbn [In]; split; intros X;
      try (exfalso; exact X); try (destruct X as [X|[]]; discriminate X);
      repeat match goal with
             | H : exists _, _ |- _ => destruct H
             | H : _ /\ _ |- _ => destruct H
             | H : element _ "filters" _ |- _ => apply FO in H
             | H : value _ "filters" _ |- _ => rewrite VV in H
             end; try discriminate; try congruence;
      first [ apply VV; split; [apply truthy_filled; exact T | intros [? Y]; discriminate Y]
            | left; reflexivity
            | exfalso; match goal with H : Filled _ |- _ => apply truthy_filled in H; congruence end
            | idtac ]).
    2-8: match goal with T : truthy (YList ?l) = false, H : YList ?l = YList ?x, I : In _ ?x |- _ => injection H as <-; destruct l; [destruct I | discriminate T] end.
    - rewrite (concatM_in _ _ _ r H). unfold filter_breaks, filter_of.
      assert (ST : forall P : ydict -> Prop, (exists f, element d "filters" (YDict f) /\ P f) <-> exists f, In (YDict f) l /\ P f).
      { intros P. split; intros (f & X & Y); exists f; split; auto; [apply FO in X; destruct X as (l' & Z & I); injection Z as <-; exact I | apply FO; eauto]. }
      assert (ALL : forall f, In (YDict f) l -> exists ys, filter_errors E n (qualify_filter E f) = Ok ys).
      { intros f I. destruct (concatM_ok_all _ _ _ H (YDict f) I) as [ys Y]. eauto. }
      split.
      + intros (a & ys & I & Y & R). destruct a as [| | | | | |f].
        7:{ apply (one_filter f ys r Y) in R. assert (FF : element d "filters" (YDict f)) by (apply FO; eauto).
            destruct r; try contradiction; try (destruct R as (s & R1 & R2)); eauto 10. }
        all: injection Y as <-; destruct R as [<-|[]]; (split; [apply FO; eauto|]); intros [? X]; discriminate X.
      + intros X. destruct r; try (exfalso; exact X).
        * rewrite VV in X. exfalso. apply (proj2 X). eexists. reflexivity.
        * destruct X as [X Y]. apply FO in X. destruct X as (l' & Z & I). injection Z as <-. exists v.
          destruct v as [| | | | | |f]; try (eexists; split; [exact I|]; split; [reflexivity|left; reflexivity]). exfalso. apply Y. eexists. reflexivity.
        * destruct X as (g0 & s & X & Y). apply FO in X. destruct X as (l' & Z & I). injection Z as <-. destruct (ALL g0 I) as [ys EY]. exists (YDict g0), ys. split; [exact I|]. split; [exact EY|]. apply (one_filter g0 ys _ EY). eauto.
        * destruct X as (g0 & X & Y). apply FO in X. destruct X as (l' & Z & I). injection Z as <-. destruct (ALL g0 I) as [ys EY]. exists (YDict g0), ys. split; [exact I|]. split; [exact EY|]. apply (one_filter g0 ys _ EY). eauto.
        * destruct X as (g0 & s & X & Y). apply FO in X. destruct X as (l' & Z & I). injection Z as <-. destruct (ALL g0 I) as [ys EY]. exists (YDict g0), ys. split; [exact I|]. split; [exact EY|]. apply (one_filter g0 ys _ EY). eauto.
        * destruct X as (g0 & X & Y). apply FO in X. destruct X as (l' & Z & I). injection Z as <-. destruct (ALL g0 I) as [ys EY]. exists (YDict g0), ys. split; [exact I|]. split; [exact EY|]. apply (one_filter g0 ys _ EY). eauto.
        * destruct X as (g0 & X & Y). apply FO in X. destruct X as (l' & Z & I). injection Z as <-. destruct (ALL g0 I) as [ys EY]. exists (YDict g0), ys. split; [exact I|]. split; [exact EY|]. apply (one_filter g0 ys _ EY). eauto.
        * destruct X as (g0 & X & Y). apply FO in X. destruct X as (l' & Z & I). injection Z as <-. destruct (ALL g0 I) as [ys EY]. exists (YDict g0), ys. split; [exact I|]. split; [exact EY|]. apply (one_filter g0 ys _ EY). eauto.
  Qed.

  (** *** The date *)
  Lemma canon_iff d out r : canon_errors E d = Ok out -> (In r out <-> canon_breaks E d r).
  Proof.
    unfold canon_errors. intros H.
    assert (NC : forall (P : Prop), (forall s, ~ (is_text d "canon_date" s /\ s <> "")) -> ~ value d "canon_date" (fun v => Filled v /\ ~ Str v) -> out = [] -> (In r out <-> canon_breaks E d r)).
    { intros _ N1 N2 ->. split; [intros []|]. intros X. exfalso. unfold canon_breaks in X. destruct r; try exact X; [exact (N2 X)| |].
      - destruct X as (c & i & (s & Y & Z & _) & _). apply (N1 s). auto.
      - destruct X as (c & (s & Y & Z & _) & _). apply (N1 s). auto. }
    assert (SELF : forall v, e_default_date E = Some v -> String.eqb (qualify E v) (view_default_date E) = true)
      by (intros v X; unfold view_default_date; rewrite X; apply String.eqb_refl).
    assert (DEF : canon_date E d = option_map (fun v => YStr (qualify E v)) (e_default_date E) -> out = []).
    { intros X. rewrite X in H. destruct (e_default_date E) as [v|]; cbn [option_map] in H; [rewrite (SELF v eq_refl) in H|]; congruence. }
    unfold canon_date, get, is_text, value in *.
    destruct (assoc "canon_date" d) as [v|] eqn:G; cycle 1.
    { apply (NC True); [intros s [X _]; discriminate X | intros (v & X & _); discriminate X | apply DEF; reflexivity]. }
    destruct v as [|b|z|b|s|l|m].
    5:{ destruct (String.eqb_spec s "") as [->|NE].
        { apply (NC True); [intros s [X Y]; congruence | intros (v & X & Y & Z); injection X as <-; apply Z; eexists; reflexivity | apply DEF; reflexivity]. }
        set (c := qualify E (replace "}" "" (replace "${" "" s))) in *.
        destruct (String.eqb_spec c (view_default_date E)) as [EQ|NQ].
        - injection H as <-. split; [intros []|]. intros X. exfalso. unfold canon_breaks, is_text, value in X. rewrite G in X.
          destruct r; try exact X.
          + destruct X as (v & X & _ & Y). injection X as <-. apply Y. eexists. reflexivity.
          + destruct X as (c' & i & (s' & X & _ & Y & Z) & _). injection X as <-. apply Z. rewrite Y. exact EQ.
          + destruct X as (c' & (s' & X & _ & Y & Z) & _). injection X as <-. apply Z. rewrite Y. exact EQ.
        - assert (NM : forall c', (exists s0 : string, Some (YStr s) = Some (YStr s0) /\ s0 <> "" /\ c' = full E (replace "}" "" (replace "${" "" s0)) /\
             c' <> full E (match e_default_date E with Some v => v | None => "None" end)) <-> c' = c).
          { intros c'. split; [intros (s0 & X & _ & Y & _); injection X as <-; exact Y|]. intros ->. exists s. split; [reflexivity|]. split; [exact NE|]. split; [reflexivity|exact NQ]. }
          unfold canon_breaks, is_text, value. rewrite G.
          assert (NT : ~ exists v, Some (YStr s) = Some v /\ Filled v /\ ~ Str v) by (intros (v & X & _ & Y); injection X as <-; apply Y; eexists; reflexivity).
          destruct (e_by_name E c) as [i|x] eqn:B.
          + injection H as <-. rewrite in_chk, orb_true_iff, !negb_true_iff, !String.eqb_neq. split.
            * intros [K ->]. exists c, i. split; [apply NM; reflexivity|]. split; [exact B|]. tauto.
            * intros X. destruct r; try (exfalso; exact X); try (exfalso; exact (NT X)).
              -- destruct X as (c' & i' & X & Y & Z). apply NM in X. subst c'. rewrite B in Y. injection Y as <-. split; [|reflexivity].
                 destruct (string_dec (fi_ftype i) "dimension_group"); [right|left]; tauto.
              -- destruct X as (c' & X & [Y|Y]); apply NM in X; subst c'; congruence.
          + assert (XQ : (x = AccessDenied \/ x = QueryError) /\ out = [RCanonMissing]) by (destruct x; try discriminate H; injection H as <-; auto).
            destruct XQ as [XQ ->]. cbn [In]. split.
            * intros [<-|[]]. exists c. split; [apply NM; reflexivity|]. destruct XQ as [->| ->]; auto.
            * intros X. destruct r; try (exfalso; exact X); try (exfalso; exact (NT X)); [|left; reflexivity].
              destruct X as (c' & i' & X & Y & Z). apply NM in X. subst c'. congruence. }
    all: match type of H with context [truthy ?w] => destruct (truthy w) eqn:T end;
      [ injection H as <-; cbn [In]; unfold canon_breaks, is_text, value; rewrite G; split;
        [ intros [<-|[]]; eexists; (split; [reflexivity|]); split; [apply truthy_filled; exact T | intros [? X]; discriminate X]
        | intros X; destruct r; try (exfalso; exact X); [left; reflexivity | | ];
          repeat match goal with H : exists _, _ |- _ => destruct H | H : _ /\ _ |- _ => destruct H end; discriminate ]
      | apply (NC True); [intros s [X _]; discriminate X | intros (w & X & Y & _); injection X as <-; apply truthy_filled in Y; congruence | apply DEF; reflexivity] ].
  Qed.

  (** *** References *)
  Lemma refs_iff : forall k view s out, refs E k view s = Ok out ->
    (forall q, In (inl q) out <-> dangles E view s q) /\ (forall i, In (inr i) out <-> reaches E view s i).
  Proof.
    induction k as [|k IH]; intros view s out H; cbn [refs] in H; [discriminate H|].
    assert (ALL := concatM_ok_all _ _ _ H). pose proof (fun x => concatM_in _ _ _ x H) as IN. clear H.
    split.
    - intros q. rewrite (IN (inl q)). split.
      + intros (r & ys & I & Y & J). destruct (String.eqb_spec r "TABLE") as [_|NT]; [injection Y as <-; destruct J|].
        destruct (e_with_view E view r) as [i|x] eqn:W.
        * destruct (String.eqb_spec (fi_type i) "number") as [NU|_]; [|injection Y as <-; destruct J as [J|[]]; discriminate J].
          apply bind_ok in Y. destruct Y as [t [T Y]]. destruct t as [t|]; [|injection Y as <-; destruct J].
          destruct (contains "{%" t) eqn:C; [injection Y as <-; destruct J|].
          apply (IH _ _ _ Y) in J. eapply dangles_inside; eauto.
        * destruct x; try discriminate Y. injection Y as <-. destruct J as [J|[]]. injection J as ->. eapply dangles_here; eauto.
      + intros D. assert (OWN : In q (fields_to_replace s) /\ q <> "TABLE" /\ e_with_view E view q = Err AccessDenied \/
            exists p i t, In p (fields_to_replace s) /\ p <> "TABLE" /\ e_with_view E view p = Ok i /\ fi_type i = "number" /\ fi_sql i = Ok (Some t) /\ contains "{%" t = false /\ dangles E (fi_view i) t q)
          by (destruct D; [left; auto | right; eauto 20]).
        destruct OWN as [(I & NT & W)|(p & i & t & I & NT & W & NU & T & C & D')].
        * destruct (ALL q I) as [ys Y]. exists q, ys. split; [exact I|]. split; [exact Y|].
          destruct (String.eqb_spec q "TABLE"); [congruence|]. rewrite W in Y. injection Y as <-. left. reflexivity.
        * destruct (ALL p I) as [ys Y]. exists p, ys. split; [exact I|]. split; [exact Y|].
          destruct (String.eqb_spec p "TABLE"); [congruence|]. rewrite W, NU in Y. cbn [String.eqb] in Y. rewrite T in Y. cbn [bind] in Y. rewrite C in Y.
          apply (IH _ _ _ Y). exact D'.
    - intros j. rewrite (IN (inr j)). split.
      + intros (r & ys & I & Y & J). destruct (String.eqb_spec r "TABLE") as [_|NT]; [injection Y as <-; destruct J|].
        destruct (e_with_view E view r) as [i|x] eqn:W.
        * destruct (String.eqb_spec (fi_type i) "number") as [NU|NN].
          -- apply bind_ok in Y. destruct Y as [t [T Y]]. destruct t as [t|]; [|injection Y as <-; destruct J].
             destruct (contains "{%" t) eqn:C; [injection Y as <-; destruct J|].
             apply (IH _ _ _ Y) in J. eapply reaches_inside; eauto.
          -- injection Y as <-. destruct J as [J|[]]. injection J as ->. eapply reaches_here; eauto.
        * destruct x; try discriminate Y. injection Y as <-. destruct J as [J|[]]. discriminate J.
      + intros D. assert (OWN : (exists r, In r (fields_to_replace s) /\ r <> "TABLE" /\ e_with_view E view r = Ok j /\ fi_type j <> "number") \/
            exists p i t, In p (fields_to_replace s) /\ p <> "TABLE" /\ e_with_view E view p = Ok i /\ fi_type i = "number" /\ fi_sql i = Ok (Some t) /\ contains "{%" t = false /\ reaches E (fi_view i) t j)
          by (destruct D; [left; eauto | right; eauto 20]).
        destruct OWN as [(r & I & NT & W & NN)|(p & i & t & I & NT & W & NU & T & C & D')].
        * destruct (ALL r I) as [ys Y]. exists r, ys. split; [exact I|]. split; [exact Y|].
          destruct (String.eqb_spec r "TABLE"); [congruence|]. rewrite W in Y. destruct (String.eqb_spec (fi_type j) "number"); [congruence|]. injection Y as <-. left. reflexivity.
        * destruct (ALL p I) as [ys Y]. exists p, ys. split; [exact I|]. split; [exact Y|].
          destruct (String.eqb_spec p "TABLE"); [congruence|]. rewrite W, NU in Y. cbn [String.eqb] in Y. rewrite T in Y. cbn [bind] in Y. rewrite C in Y.
          apply (IH _ _ _ Y). exact D'.
  Qed.
  Lemma in_missing l r : In r (missing l) <-> exists q, r = RBadRef q /\ In (inl q) l.
  Proof.
    unfold missing. rewrite in_flat_map. split.
    - intros ([q|i] & I & H); [destruct H as [<-|[]]; eauto | destruct H].
    - intros (q & -> & I). exists (inl q). split; [exact I|]. left. reflexivity.
  Qed.
  Lemma nad_on_side k d : nad_on (sql_side k d) = true <-> value d k Filled.
  Proof.
    unfold nad_on, sql_side, value, get. destruct (assoc k d) as [v|]; cycle 1.
    { split; [discriminate|]. intros (v & X & _). discriminate X. }
    assert (Q : forall w, (exists v0, Some w = Some v0 /\ Filled v0) <-> Filled w) by (intros w; split; [intros (w' & X & Y); congruence|eauto]).
    rewrite Q, <- truthy_filled. destruct v; try reflexivity. cbn [truthy]. unfold clean_case.
    assert (NE : forall l t, t = "" <-> fold_left (fun t r => if String.eqb r "TABLE" then t else replace (placeholder r) (placeholder (lower r)) t) l t = "").
    { induction l as [|a l IH]; intros t; [reflexivity|]. cbn [fold_left]. destruct (String.eqb a "TABLE"); [apply IH|]. rewrite <- IH. split; [intros ->; reflexivity|].
      intros X. destruct t as [|c t]; [reflexivity|]. exfalso. rewrite replace_unfold in X by discriminate. destruct (strip_prefix (placeholder a) (String c t)); [|discriminate X].
      cbn in X. discriminate X. }
    specialize (NE (fields_to_replace s) s). destruct (String.eqb_spec s "") as [->|N]; [reflexivity|].
    match goal with |- context [String.eqb ?x ""] => destruct (String.eqb_spec x "") as [Y|_] end; [|reflexivity]. exfalso. apply N, NE. exact Y.
  Qed.

  Lemma refs_of_iff v out : refs_of E fuel v = Ok out ->
    (forall q, In (inl q) out <-> exists t, v = Some (YStr t) /\ dangles E (e_view E) t q) /\ (forall i, In (inr i) out <-> exists t, v = Some (YStr t) /\ reaches E (e_view E) t i).
  Proof.
    unfold refs_of. intros H. destruct v as [[]|]; try discriminate H.
    - injection H as <-. split; intros; (split; [intros [] | intros (t & X & _); discriminate X]).
    - destruct (refs_iff _ _ _ _ H) as [A B]. split; intros x; [rewrite (A x)|rewrite (B x)]; (split; [eauto|]); intros (t & X & Y); injection X as <-; exact Y.
    - injection H as <-. split; intros; (split; [intros [] | intros (t & X & _); discriminate X]).
  Qed.
  Lemma side_text k d t : sql_side k d = Some (YStr t) <-> exists s, is_text d k s /\ t = clean_case s.
  Proof.
    unfold sql_side, is_text, get. destruct (assoc k d) as [[]|]; split; intros H; try discriminate H; try (destruct H as (x & X & Y); discriminate X).
    - injection H as <-. eauto.
    - destruct H as (x & X & ->). injection X as <-. reflexivity.
  Qed.
  Lemma referenced_iff d out : referenced E fuel n d = Ok out ->
    (out = None <-> looker E n d) /\
    (forall l, out = Some l -> forall q, In (inl q) l <-> exists t, source E n d t /\ dangles E (e_view E) t q).
  Proof.
    unfold referenced. intros H. apply bind_ok in H. destruct H as [v [V H]]. apply bind_ok in H. destruct H as [b [B H]].
    assert (LK : b = true <-> looker E n d).
    { unfold looker. destruct v as [v|]; [|injection B as <-; split; [discriminate|]; intros (t & X & _); congruence].
      destruct v; cbn [truthy] in B.
      5:{ injection B as <-. split; [intros X; exists s; auto|]. intros (t & X & Y). congruence. }
      all: assert (b = false) by (repeat match type of B with context [if ?x then _ else _] => destruct x | context [match ?x with [] => _ | _ => _ end] => destruct x end; congruence);
        subst b; split; [discriminate | intros (t & X & _); congruence]. }
    destruct b.
    { injection H as <-. split; [tauto|]. intros l X. discriminate X. }
    assert (NL : ~ looker E n d) by (rewrite <- LK; discriminate). clear LK B.
    assert (SO : exists l, out = Some l /\ forall q, In (inl q) l <-> exists t, source E n d t /\ dangles E (e_view E) t q).
    2:{ destruct SO as (l & -> & SO). split; [split; [discriminate|contradiction]|]. intros l' X. injection X as <-. exact SO. }
    unfold ytype in H. destruct (eq_str (get "type" d) "cumulative") eqn:CU.
    { apply eq_str_get in CU. apply bind_ok in H. destruct H as [m [_ H]]. injection H as <-. exists []. split; [reflexivity|].
      intros q. split; [intros []|]. intros (t & (X & _) & _). contradiction. }
    apply eq_str_not in CU.
    destruct (eq_str (get "type" d) "duration" && nad_on (sql_side "sql_start" d) && nad_on (sql_side "sql_end" d)) eqn:SD.
    - apply andb_true_iff in SD. destruct SD as [SD X3]. apply andb_true_iff in SD. destruct SD as [X1 X2].
      apply eq_str_get in X1. apply nad_on_side in X2. apply nad_on_side in X3.
      apply bind_ok in H. destruct H as [a [A H]]. apply bind_ok in H. destruct H as [c [C H]]. injection H as <-. exists (a ++ c). split; [reflexivity|].
      apply refs_of_iff in A. apply refs_of_iff in C. destruct A as [A _]. destruct C as [C _].
      intros q. rewrite in_app_iff, A, C. split.
      + intros [(t & S & D)|(t & S & D)]; apply side_text in S; destruct S as (s & S & ->); (exists (clean_case s); split; [|exact D]); (split; [exact CU|]); left; (split; [auto|]); eauto.
      + intros (t & (_ & [(_ & s & [S|S] & ->)|(N & _)]) & D); [left|right|]; try (exists (clean_case s); split; [apply side_text; eauto|exact D]).
        exfalso. apply N. auto.
    - assert (NS : ~ (is_text d "type" "duration" /\ value d "sql_start" Filled /\ value d "sql_end" Filled)).
      { intros (X1 & X2 & X3). apply eq_str_get in X1. apply nad_on_side in X2. apply nad_on_side in X3. rewrite X1, X2, X3 in SD. discriminate SD. }
      apply bind_ok in H. destruct H as [a [A H]]. injection H as <-. exists a. split; [reflexivity|]. apply refs_of_iff in A. destruct A as [A _].
      intros q. rewrite A. split.
      + intros (t & -> & D). exists t. split; [|exact D]. split; [exact CU|]. right. auto.
      + intros (t & (_ & [(S & _)|(_ & S)]) & D); [contradiction|]. exists t. split; [congruence|exact D].
  Qed.
  Lemma sql_errors_iff d s out r : sql_errors E fuel n d s = Ok out -> (In r out <-> sql_breaks E n d s r).
  Proof.
    unfold sql_errors. intros H. apply bind_ok in H. destruct H as [x [X H]]. apply ok_inj in H. subst out.
    apply referenced_iff in X. destruct X as [L R]. rewrite in_app_iff, in_chk, String.eqb_eq. unfold sql_breaks. destruct x as [l|].
    - specialize (R l eq_refl). rewrite in_missing. assert (NL : ~ looker E n d) by (rewrite <- L; discriminate). split.
      + intros [[-> ->]|(q & -> & I)]; [reflexivity|]. split; [exact NL|]. apply R. exact I.
      + intros X. destruct r; try (exfalso; exact X); [left; auto | contradiction | right; exists r; split; [reflexivity|]; apply R; apply X].
    - assert (LK : looker E n d) by (apply L; reflexivity). cbn [In]. split.
      + intros [[-> ->]|[<-|[]]]; [reflexivity|exact LK].
      + intros X. destruct r; try (exfalso; exact X); auto. exfalso. apply (proj1 X). exact LK.
  Qed.
  (** A sql text stays a text *)
  Lemma sql_finish_text d s v : sql_finish E n d (YStr s) = Ok v -> exists t, v = Some (YStr t).
  Proof.
    unfold sql_finish. intros H. apply bind_ok in H. destruct H as [m [_ H]]. apply bind_ok in H. destruct H as [a [A H]].
    assert (SA : exists t, a = YStr t).
    { destruct (truthy (filters d) || nad_on m); [|injection A as <-; eauto]. destruct (eq_str _ "*"); [discriminate A|].
      apply bind_ok in A. destruct A as [fs [_ A]]. apply bind_ok in A. destruct A as [nn [_ A]]. apply bind_ok in A. destruct A as [nm [_ A]]. apply bind_ok in A. destruct A as [t [_ A]]. injection A as <-. eauto. }
    destruct SA as [t ->]. apply bind_ok in H. destruct H as [b [B H]].
    assert (SB : exists u, b = YStr u).
    { destruct (eq_str (ytype d) "tier"); [|injection B as <-; eauto]. destruct (get "tiers" d) as [[| | | | |[|x l]|]|]; try discriminate B; injection B as <-; eauto. }
    destruct SB as [u ->]. destruct (eq_str (ytype d) "yesno"); injection H as <-; eauto.
  Qed.
  Lemma sql_text d s v : is_text d "sql" s -> sql E n d = Ok v -> exists t, v = Some (YStr t).
  Proof.
    unfold is_text, sql, sql_body, get. intros ->. intros H. destruct (sql_finish E n d (YStr s)) as [w|x] eqn:F.
    - injection H as <-. apply sql_finish_text in F. exact F.
    - destruct x; try discriminate H. injection H as <-. eauto.
  Qed.
  Lemma own_sql_iff d s out r : is_text d "sql" s -> own_sql_errors E fuel n d = Ok out -> (In r out <-> own_sql_breaks E n d r).
  Proof.
    intros T H. unfold own_sql_errors in H. apply bind_ok in H. destruct H as [v [V H]]. destruct (sql_text d s v T V) as [t ->].
    rewrite (sql_errors_iff d t out r H). unfold own_sql_breaks. split; [eauto|]. intros (u & U & X). congruence.
  Qed.
  Lemma own_sql_rules d r : own_sql_breaks E n d r -> match r with RSelfRef | RLooker | RBadRef _ => True | _ => False end.
  Proof. intros (t & _ & X). unfold sql_breaks in X. destruct r; try exact I; exact X. Qed.
  Lemma sql_rules d s r : sql_breaks E n d s r -> match r with RSelfRef | RLooker | RBadRef _ => True | _ => False end.
  Proof. intros X. unfold sql_breaks in X. destruct r; try exact I; exact X. Qed.

  Lemma value_str d k : value d k Str <-> exists s, is_text d k s.
  Proof. unfold value, Str, is_text. split; [intros (v & X & s & ->); eauto | intros (s & X); exists (YStr s); eauto]. Qed.
  Lemma get_str d k : (match get k d with Some v => is_str v | None => false end) = true <-> value d k Str.
  Proof.
    rewrite value_str. unfold is_text, get. destruct (assoc k d) as [[]|]; split; intros X; try discriminate X; try (destruct X as [s X]; discriminate X); eauto.
  Qed.

  (** *** Dimensions *)
  Lemma dimension_iff d out r : dimension_errors E fuel n d = Ok out -> (In r out <-> dimension_breaks E n d r).
  Proof.
    unfold dimension_errors, ytype. intros H. apply bind_ok in H. destruct H as [s [S H]]. apply bind_ok in H. destruct H as [dr [DR H]]. apply ok_inj in H. subst out.
    assert (SI : In r s <-> (r = RSql /\ ~ value d "sql" Str /\ lacks d "case") \/ (r = RCase /\ ~ lacks d "case") \/ (value d "sql" Str /\ lacks d "case" /\ own_sql_breaks E n d r)).
    { assert (GS := get_str d "sql"). assert (HC := has_false "case" d). assert (HT := has_true "case" d).
      destruct (match get "sql" d with Some v => is_str v | None => false end); cbn [negb andb] in S.
      - assert (VS : value d "sql" Str) by (apply GS; reflexivity). destruct (has "case" d).
        + injection S as <-. assert (NC : ~ lacks d "case") by (apply HT; reflexivity). cbn [In]. intuition congruence.
        + assert (NC : lacks d "case") by (apply HC; reflexivity). apply value_str in VS. destruct VS as [t VS].
          rewrite (own_sql_iff d t s r VS S). assert (value d "sql" Str) by (apply value_str; eauto). tauto.
      - assert (VS : ~ value d "sql" Str) by (rewrite <- GS; discriminate). destruct (has "case" d); cbn [negb] in S; injection S as <-; cbn [In].
        + assert (NC : ~ lacks d "case") by (apply HT; reflexivity). intuition congruence.
        + assert (NC : lacks d "case") by (apply HC; reflexivity). intuition congruence. }
    assert (DI : In r dr <-> (r = RDrill /\ value d "drill_fields" (fun v => ~ List_ v)) \/
       (exists f x l ns, r = RDrillField f /\ assoc "drill_fields" d = Some (YList (x :: l)) /\ e_drill E (x :: l) = Ok ns /\ In f ns /\ e_get_field E f = Err AccessDenied)).
    { clear SI S. unfold value, get in *. destruct (assoc "drill_fields" d) as [v|]; cycle 1.
      { injection DR as <-. split; [intros []|]. intros [(_ & v & X & _)|(f & x & l & ns & _ & X & _)]; discriminate X. }
      destruct v as [| | | | |[|y l]|].
      6:{ injection DR as <-. split; [intros []|]. intros [(_ & v & X & Y)|(f & x & l & ns & _ & X & _)]; [|discriminate X]. injection X as <-. exfalso. apply Y. eexists. reflexivity. }
      6:{ apply bind_ok in DR. destruct DR as [ns [N DR]]. rewrite (concatM_in _ _ _ r DR). split.
          - intros (f & ys & I & Y & R). destruct (e_get_field E f) as [i|x] eqn:G; [injection Y as <-; destruct R|].
            destruct x; try discriminate Y. injection Y as <-. destruct R as [<-|[]]. right. exists f, y, l, ns. auto.
          - intros [(_ & v & X & Y)|(f & x & l' & ns' & -> & X & Y & I & G)].
            + injection X as <-. exfalso. apply Y. eexists. reflexivity.
            + injection X as <- <-. rewrite N in Y. injection Y as <-. exists f, [RDrillField f]. split; [exact I|]. rewrite G. split; [reflexivity|]. left. reflexivity. }
      all: injection DR as <-; cbn [In]; split; [intros [<-|[]]; left; (split; [reflexivity|]); eexists; (split; [reflexivity|]); intros [? X]; discriminate X
                                                | intros [(-> & _)|(f & x & l & ns & _ & X & _)]; [left; reflexivity | discriminate X]]. }
    rewrite !in_app_iff, SI, DI. clear SI DI S DR s dr.
    assert (TI : In r (if eq_str (get "type" d) "tier" then if has "tiers" d then listed "tiers" RTiers is_int RTier d else [RTiersMissing] else []) <->
       is_text d "type" "tier" /\ ((r = RTiersMissing /\ lacks d "tiers") \/ (r = RTiers /\ value d "tiers" (fun v => ~ List_ v)) \/ (exists v, element d "tiers" v /\ ~ Int v /\ r = RTier v))).
    { destruct (eq_str (get "type" d) "tier") eqn:TY; [apply eq_str_get in TY|apply eq_str_not in TY; cbn [In]; tauto].
      destruct (has "tiers" d) eqn:HT.
      - rewrite (in_listed _ _ _ Int) by apply int_iff. apply has_true in HT. tauto.
      - apply has_false in HT. cbn [In]. unfold value, element. unfold lacks in *. rewrite HT. split; [intros [<-|[]]; auto|].
        intros (_ & [(-> & _)|[(_ & v & X & _)|(v & (l & X & _) & _)]]); [auto|discriminate X|discriminate X]. }
    rewrite TI. clear TI. rewrite !in_chk, (in_listed _ _ _ Str) by apply str_iff.
    rewrite !andb_true_iff, !negb_true_iff, on_false, str_in_get_not, eq_str_get, has_false.
    rewrite !(bad_iff _ is_str Str) by apply str_iff. rewrite !(bad_iff _ is_bool Bool_) by apply bool_iff.
    assert (OR := own_sql_rules d r). unfold dimension_breaks, dimension_options. abstract_values.
    destruct r; (split; intros H); try (exfalso; exact H); spread H; try solve [eauto 8];
      try (exfalso; match goal with H : own_sql_breaks _ _ _ _ |- _ => apply OR in H; exact H end).
    all: try (repeat (first [left; solve [eauto 20] | right]); eauto 20).
  Qed.
End Proofs.
