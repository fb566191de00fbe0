(** C61: dumping a project and loading the folder gives the project back. *)
From Coq Require Import List String Ascii ZArith Bool Lia Permutation.
From Verif Require Import PyBase PyStr PyList Files_Model.
Import ListNotations.
Open Scope string_scope.
Open Scope list_scope.

(** ** Specification *)

(** The same dict up to the order of its keys. *)
Definition same_dict (a b : ydict) : Prop := forall k, assoc k a = assoc k b.

(** The same model: every key that is written (no leading underscore) has the same value. *)
Definition same_model (a b : ydict) : Prop := forall k, starts_with "_" k = false -> assoc k a = assoc k b.

(** The same list of fields, up to order (of the fields and of their keys). *)
Definition same_fields (x y : option yv) : Prop :=
  match x, y with
  | None, None => True
  | Some (YList l), Some (YList l') =>
      exists ds ds' ds'', l = map YMap ds /\ l' = map YMap ds' /\ Permutation ds ds'' /\ Forall2 same_dict ds'' ds'
  | _, _ => False
  end.

Definition same_view (a b : ydict) : Prop :=
  (forall k, starts_with "_" k = false -> k <> "fields" -> assoc k a = assoc k b) /\
  same_fields (assoc "fields" a) (assoc "fields" b).

(** ** Lemmas *)

Lemma assoc_app {B} k (a b : list (string * B)) :
  assoc k (a ++ b) = match assoc k a with Some v => Some v | None => assoc k b end.
Proof. induction a as [|[k' v] a IH]; [reflexivity|]. cbn. destruct (String.eqb k k'); [reflexivity|exact IH]. Qed.

Lemma assoc_none_keys {B} k (d : list (string * B)) : assoc k d = None <-> ~ In k (map fst d).
Proof.
  induction d as [|[k' v] d IH]; [cbn; tauto|]. cbn. destruct (String.eqb_spec k k') as [->|N].
  - split; [discriminate|]. intros H. exfalso. apply H. left. reflexivity.
  - rewrite IH. split; intros H; [intros [E|E]; [congruence|auto] | intros E; apply H; right; exact E].
Qed.

Lemma assoc_pick_keys (d : ydict) keys k :
  (assoc k d <> None -> In k keys) ->
  assoc k (flat_map (fun k => match assoc k d with Some v => [(k, v)] | None => [] end) keys) = assoc k d.
Proof.
  induction keys as [|a keys IH]; cbn [flat_map].
  - intros H. destruct (assoc k d) eqn:E; [|reflexivity]. exfalso. apply H. discriminate.
  - intros H. rewrite assoc_app. destruct (String.eqb_spec k a) as [->|N].
    + destruct (assoc a d) as [v|] eqn:E; cbn; [rewrite String.eqb_refl; reflexivity|].
      apply IH. intros C. exfalso. apply C. reflexivity.
    + assert (assoc k (match assoc a d with Some v => [(a, v)] | None => [] end) = None) as ->.
      { destruct (assoc a d); cbn; [destruct (String.eqb_spec k a); congruence | reflexivity]. }
      apply IH. intros C. destruct (H C); [congruence | assumption].
Qed.

Lemma assoc_sort_keys order d k : assoc k (sort_keys order d) = assoc k d.
Proof.
  unfold sort_keys. apply assoc_pick_keys. intros H. apply in_or_app. destruct (mem k order) eqn:M.
  - left. apply mem_In. exact M.
  - right. apply filter_In. split; [|rewrite M; reflexivity].
    destruct (In_dec string_dec k (map fst d)) as [I|I]; [exact I|]. exfalso. apply H. apply assoc_none_keys. exact I.
Qed.

Lemma assoc_public d k : assoc k (public d) = if starts_with "_" k then None else assoc k d.
Proof.
  unfold public. induction d as [|[k' v] d IH]; cbn -[starts_with]; [destruct (starts_with "_" k); reflexivity|].
  destruct (starts_with "_" k') eqn:U; cbn -[starts_with].
  - rewrite IH. destruct (String.eqb_spec k k') as [->|]; [rewrite U; reflexivity | reflexivity].
  - destruct (String.eqb_spec k k') as [->|]; [rewrite U; reflexivity | exact IH].
Qed.

Lemma assoc_yset k v d k' : assoc k' (yset k v d) = if String.eqb k' k then Some v else assoc k' d.
Proof.
  unfold yset. destruct (assoc k d) eqn:E.
  - revert E. induction d as [|[a w] d IH]; [discriminate|]. cbn. destruct (String.eqb_spec k a) as [->|N].
    + intros _. cbn. destruct (String.eqb_spec k' a) as [->|]; [reflexivity|].
      clear IH. induction d as [|[b u] d IH]; [reflexivity|]. cbn. destruct (String.eqb_spec a b) as [->|]; cbn.
      * destruct (String.eqb_spec k' b); [congruence | exact IH].
      * destruct (String.eqb k' b); [reflexivity | exact IH].
    + intros E. cbn. destruct (String.eqb_spec k' a) as [->|].
      * destruct (String.eqb_spec a k); [congruence | reflexivity].
      * apply IH. exact E.
  - rewrite assoc_app. cbn. destruct (String.eqb_spec k' k) as [->|]; [rewrite E; reflexivity|]. destruct (assoc k' d); reflexivity.
Qed.

Lemma keys_yset k v d p : In p (map fst (yset k v d)) <-> In p (map fst d) \/ p = k.
Proof.
  assert (A : assoc p (yset k v d) <> None <-> assoc p d <> None \/ p = k).
  { rewrite assoc_yset. destruct (String.eqb_spec p k) as [->|]; split; intros H; auto; try discriminate.
    destruct H; [assumption|contradiction]. }
  split; intros H.
  - destruct (In_dec string_dec p (map fst d)) as [I|I]; [left; exact I|]. right.
    apply assoc_none_keys in I. destruct A as [A _]. destruct A as [A|A]; [|contradiction|exact A].
    intros C. apply assoc_none_keys in C. contradiction.
  - destruct (In_dec string_dec p (map fst (yset k v d))) as [I|I]; [exact I|]. exfalso.
    apply assoc_none_keys in I. apply A; [|exact I]. destruct H as [H|H]; [|right; exact H]. left.
    intros C. apply assoc_none_keys in C. contradiction.
Qed.

Lemma insert_by_perm x l : Permutation (insert_by x l) (x :: l).
Proof.
  induction l as [|y l IH]; [reflexivity|]. cbn. destruct (Nat.leb (fst x) (fst y)); [reflexivity|].
  rewrite IH. apply perm_swap.
Qed.
Lemma sort_by_perm l : Permutation (fold_right insert_by [] l) l.
Proof. induction l as [|x l IH]; [reflexivity|]. cbn. rewrite insert_by_perm. apply perm_skip, IH. Qed.

Lemma as_map_all l ds : mapM as_map l = Ok ds -> l = map YMap ds.
Proof.
  revert ds. induction l as [|x l IH]; intros ds; cbn; [intros [= <-]; reflexivity|].
  destruct x as [| | | | |d]; try discriminate. cbn. destruct (mapM as_map l) as [y|]; [|discriminate]. cbn.
  intros [= <-]. cbn. f_equal. apply IH. reflexivity.
Qed.

Lemma keyed_all ds keyed : mapM (fun d => k <- field_key d ;; Ok (k, d)) ds = Ok keyed -> map snd keyed = ds.
Proof.
  revert keyed. induction ds as [|d ds IH]; intros keyed; cbn -[field_key]; [intros [= <-]; reflexivity|].
  destruct (field_key d) as [k|]; [|discriminate]. cbn -[field_key].
  destruct (mapM _ ds) as [y|]; [|discriminate]. cbn. intros [= <-]. cbn. f_equal. apply IH. reflexivity.
Qed.

Lemma sort_fields_same f f' : sort_fields f = Ok f' -> same_fields (Some f) (Some f').
Proof.
  destruct f as [| | | |l|]; try discriminate. cbn -[field_key sort_keys].
  destruct (mapM as_map l) as [ds|] eqn:A; [|discriminate]. cbn -[field_key sort_keys].
  destruct (mapM _ ds) as [keyed|] eqn:B; [|discriminate]. cbn -[sort_keys]. intros [= <-].
  exists ds, (map (fun kd => sort_keys field_key_order (snd kd)) (fold_right insert_by [] keyed)),
    (map snd (fold_right insert_by [] keyed)).
  split; [apply as_map_all; exact A|]. split; [rewrite map_map; reflexivity|]. split.
  - rewrite <- (keyed_all _ _ B). apply Permutation_map. symmetry. apply sort_by_perm.
  - induction (fold_right insert_by [] keyed) as [|x l' IH]; [constructor|]. cbn [map]. constructor; [|exact IH].
    intros k. symmetry. apply assoc_sort_keys.
Qed.

Lemma sort_view_same v v' : sort_view v = Ok v' -> same_view v v'.
Proof.
  unfold sort_view. destruct (assoc "fields" v) as [f|] eqn:E.
  - destruct (sort_fields f) as [f'|] eqn:S; [|discriminate]. cbn -[sort_keys]. intros [= <-]. split.
    + intros k _ N. rewrite assoc_sort_keys, assoc_yset. destruct (String.eqb_spec k "fields"); [contradiction|reflexivity].
    + rewrite assoc_sort_keys, assoc_yset, E. cbn [String.eqb Ascii.eqb Bool.eqb]. apply sort_fields_same. exact S.
  - intros [= <-]. split.
    + intros k _ _. symmetry. apply assoc_sort_keys.
    + rewrite assoc_sort_keys, E. exact I.
Qed.

Section Dump.
  Variable sort : ydict -> res ydict.
  Variables root folder suffix : string.

  Lemma dump_all_ok l : forall f f',
    dump_all sort root folder suffix l f = Ok f' ->
    exists ps ds, Forall2 (fun d p => target root folder suffix d = Ok p) l ps /\
      Forall2 (fun d d' => sort d = Ok d') l ds /\
      (NoDup ps -> Forall2 (fun p d' => assoc p f' = Some (YMap (public d'))) ps ds) /\
      (forall p, ~ In p ps -> assoc p f' = assoc p f) /\
      (forall p, In p (map fst f') <-> In p (map fst f) \/ In p ps).
  Proof.
    induction l as [|d l IH]; intros f f'; cbn -[target].
    - intros [= <-]. exists [], []. repeat split; try constructor; try tauto. intros [H|[]]; exact H.
    - destruct (target root folder suffix d) as [p|] eqn:T; [|discriminate]. cbn [bind].
      destruct (sort d) as [d'|] eqn:S; [|discriminate]. cbn [bind]. intros H.
      destruct (IH _ _ H) as [ps [ds [A [B [C [D E]]]]]]. exists (p :: ps), (d' :: ds).
      split; [constructor; assumption|]. split; [constructor; assumption|]. split; [|split].
      + intros N. inversion N as [|x y N1 N2]; subst. constructor; [|apply C; exact N2].
        rewrite (D p N1). unfold write. rewrite assoc_yset, String.eqb_refl. reflexivity.
      + intros q NQ. rewrite D; [|intros I; apply NQ; right; exact I]. unfold write. rewrite assoc_yset.
        destruct (String.eqb_spec q p) as [->|]; [exfalso; apply NQ; left; reflexivity | reflexivity].
      + intros q. rewrite E. unfold write. rewrite keys_yset. cbn. intuition.
  Qed.
End Dump.

Lemma Forall2_det {A B} (f : A -> res B) l x y :
  Forall2 (fun a b => f a = Ok b) l x -> Forall2 (fun a b => f a = Ok b) l y -> x = y.
Proof.
  intros H. revert y. induction H as [|a b l x E H IH]; intros y K; inversion K; subst; [reflexivity|].
  f_equal; [congruence | apply IH; assumption].
Qed.

Lemma starts_file_path : starts_with "_" "_file_path" = true. Proof. reflexivity. Qed.

Lemma mapM_total {A B} (f : A -> res B) (g : A -> B) l : (forall x, In x l -> f x = Ok (g x)) -> mapM f l = Ok (map g l).
Proof.
  induction l as [|x l IH]; [reflexivity|]. intros H. cbn. rewrite (H x (or_introl eq_refl)). cbn.
  rewrite IH; [reflexivity | intros y I; apply H; right; exact I].
Qed.

Lemma filter_perm {A} (p : A -> bool) l m : Permutation l m -> Permutation (filter p l) (filter p m).
Proof.
  induction 1; cbn; try reflexivity; repeat match goal with |- context [if ?b then _ else _] => destruct b end; auto.
  - apply perm_swap. - etransitivity; eassumption.
Qed.

Lemma Forall2_map_r {A B C} (R : A -> C -> Prop) (g : B -> C) l m :
  Forall2 (fun a b => R a (g b)) l m -> Forall2 R l (map g m).
Proof. induction 1; cbn; constructor; auto. Qed.

Lemma Forall2_trans_gen {A B C} (P : A -> B -> Prop) (Q : A -> C -> Prop) (R : B -> C -> Prop) l m n :
  Forall2 P l m -> Forall2 Q l n -> (forall a b c, In a l -> P a b -> Q a c -> R b c) -> Forall2 R m n.
Proof.
  intros H. revert n. induction H as [|a b l m E H IH]; intros n K F; inversion K; subst; constructor.
  - eapply F; [left; reflexivity | eassumption | eassumption].
  - apply IH; [assumption | intros a' b' c' I0; apply F; right; exact I0].
Qed.

Lemma nodup_app {A} (a b : list A) : NoDup (a ++ b) -> NoDup a /\ NoDup b.
Proof.
  induction a as [|x a IH]; cbn; [split; [constructor | assumption]|]. intros H. inversion H; subst. destruct (IH H3) as [H4 H5].
  split; [|exact H5]. constructor; [|exact H4]. intros J. apply H2, in_or_app. left. exact J.
Qed.

(** ** The theorem *)

(** A project dumped into a folder that held no other project files, to distinct files that the reader
    finds, is loaded back: the same models and the same views, whatever the order in which the files
    are read. *)
Theorem C61_round_trip_partial root mf vf models views f0 f1 folders order pm pv :
  dump root mf vf models views f0 = Ok f1 ->
  Forall2 (fun d p => target root mf "_model.yml" d = Ok p) models pm ->
  Forall2 (fun d p => target root vf "_view.yml" d = Ok p) views pv ->
  NoDup (pm ++ pv) ->
  (forall p, In p (pm ++ pv) -> found f1 folders p = true) ->
  (forall p, found f0 folders p = true -> In p (pm ++ pv)) ->
  Forall (fun m => assoc "type" m = Some (YStr "model")) models ->
  Forall (fun v => assoc "type" v = Some (YStr "view")) views ->
  NoDup order -> (forall p, In p order <-> found f1 folders p = true) ->
  exists ms vs ms' vs', load root f1 order = Ok (ms, vs, []) /\
    Permutation ms ms' /\ Forall2 same_model models ms' /\
    Permutation vs vs' /\ Forall2 same_view views vs'.
Proof.
  unfold dump. intros D TM TV ND FD FO TYM TYV NO OR.
  apply bind_ok in D. destruct D as [fm [DM DV]].
  destruct (dump_all_ok _ _ _ _ _ _ _ DM) as [pm' [sm [A1 [A2 [A3 [A4 A5]]]]]].
  destruct (dump_all_ok _ _ _ _ _ _ _ DV) as [pv' [sv [B1 [B2 [B3 [B4 B5]]]]]].
  assert (pm' = pm) by (eapply Forall2_det; eassumption). subst pm'.
  assert (pv' = pv) by (eapply Forall2_det; eassumption). subst pv'.
  assert (NM : NoDup pm) by (apply (nodup_app _ _ ND)).
  assert (NV : NoDup pv) by (apply (nodup_app _ _ ND)).
  assert (DJ : forall p, In p pm -> ~ In p pv).
  { intros p I J. clear -ND I J. induction pm as [|q pm IH]; [destruct I|]. cbn in ND. inversion ND; subst.
    destruct I as [->|I]; [apply H1, in_or_app; right; exact J | apply IH; assumption]. }
  specialize (A3 NM). specialize (B3 NV).
  (* what is in the files *)
  assert (CM : Forall2 (fun p d' => assoc p f1 = Some (YMap (public d'))) pm sm).
  { clear -A3 B4 DJ. induction A3 as [|p d ps ds E H IH]; constructor.
    - rewrite B4; [exact E | apply DJ; left; reflexivity].
    - apply IH. intros q I. apply DJ. right. exact I. }
  pose (rd := fun p => match assoc p f1 with Some (YMap d) => yset "_file_path" (YStr (relpath root p)) d | _ => [] end).
  assert (PO : Permutation order (pm ++ pv)).
  { apply NoDup_Permutation; [exact NO | exact ND |]. intros p. rewrite OR. split; intros H; [|apply FD; exact H].
    destruct (In_dec string_dec p (pm ++ pv)) as [I|I]; [exact I|]. apply FO. unfold found in *.
    apply andb_true_iff in H. destruct H as [H1 H2]. apply andb_true_iff in H1. destruct H1 as [H0 H1].
    rewrite H1, H2. rewrite andb_true_r, andb_true_r. apply mem_In. apply mem_In in H0. apply B5 in H0.
    destruct H0 as [H0|H0]; [|exfalso; apply I, in_or_app; right; exact H0]. apply A5 in H0.
    destruct H0 as [H0|H0]; [exact H0 | exfalso; apply I, in_or_app; left; exact H0]. }
  assert (RD : forall p, In p (pm ++ pv) -> read_file root f1 p = Ok (rd p)).
  { intros p I. unfold read_file, rd. apply in_app_or in I. destruct I as [I|I].
    - destruct (Forall2_In_l _ _ _ CM p I) as [d [_ E]]. rewrite E. reflexivity.
    - destruct (Forall2_In_l _ _ _ B3 p I) as [d [_ E]]. rewrite E. reflexivity. }
  assert (KP : forall p d k, assoc p f1 = Some (YMap (public d)) -> starts_with "_" k = false -> assoc k (rd p) = assoc k d).
  { intros p d k E U. unfold rd. rewrite E, assoc_yset, assoc_public, U.
    destruct (String.eqb_spec k "_file_path") as [->|]; [rewrite starts_file_path in U; discriminate | reflexivity]. }
  assert (FM : Forall2 same_model models (map rd pm)).
  { apply Forall2_map_r. clear -A2 CM KP. revert pm CM. induction A2 as [|m s ms ss E H IH]; intros pm CM; inversion CM as [|q d' qs dl H2 H3]; subst; constructor.
    - intros k U. injection E as <-. rewrite (KP _ _ k H2 U). unfold sort_model. rewrite assoc_sort_keys. reflexivity.
    - apply IH. assumption. }
  assert (FV : Forall2 same_view views (map rd pv)).
  { apply Forall2_map_r. clear -B2 B3 KP. revert pv B3. induction B2 as [|m s ms ss E H IH]; intros pv CM; inversion CM as [|q d' qs dl H2 H3]; subst; constructor.
    - apply sort_view_same in E. destruct E as [E1 E2]. split.
      + intros k U N. rewrite (KP _ _ k H2 U). apply E1; assumption.
      + rewrite (KP _ _ "fields" H2 eq_refl). exact E2.
    - apply IH. assumption. }
  assert (TM' : forall p, In p pm -> assoc "type" (rd p) = Some (YStr "model")).
  { intros p I. assert (I' : In (rd p) (map rd pm)) by (apply in_map; exact I).
    destruct (Forall2_In_r _ _ _ FM _ I') as [m [J E]]. rewrite <- (E "type" eq_refl). rewrite Forall_forall in TYM. apply TYM. exact J. }
  assert (TV' : forall p, In p pv -> assoc "type" (rd p) = Some (YStr "view")).
  { intros p I. assert (I' : In (rd p) (map rd pv)) by (apply in_map; exact I).
    destruct (Forall2_In_r _ _ _ FV _ I') as [m [J [E _]]]. rewrite <- (E "type" eq_refl); [|discriminate].
    rewrite Forall_forall in TYV. apply TYV. exact J. }
  assert (FL : forall t ps, (forall p, In p ps -> exists u, assoc "type" (rd p) = Some (YStr u) /\ String.eqb u t = true) ->
               filter (has_type t) (map rd ps) = map rd ps).
  { intros t ps H. induction ps as [|p ps IH]; [reflexivity|]. cbn. unfold has_type at 1.
    destruct (H p (or_introl eq_refl)) as [u [E1 E2]]. rewrite E1, E2. f_equal. apply IH. intros q I. apply H. right. exact I. }
  assert (FE : forall t ps, (forall p, In p ps -> exists u, assoc "type" (rd p) = Some (YStr u) /\ String.eqb u t = false) ->
               filter (has_type t) (map rd ps) = []).
  { intros t ps H. induction ps as [|p ps IH]; [reflexivity|]. cbn. unfold has_type at 1.
    destruct (H p (or_introl eq_refl)) as [u [E1 E2]]. rewrite E1, E2. apply IH. intros q I. apply H. right. exact I. }
  assert (PR : Permutation (map rd order) (map rd pm ++ map rd pv)) by (rewrite <- map_app; apply Permutation_map; exact PO).
  exists (filter (has_type "model") (map rd order)), (filter (has_type "view") (map rd order)), (map rd pm), (map rd pv).
  split; [|split; [|split; [exact FM | split; [|exact FV]]]].
  - unfold load. rewrite (mapM_total _ rd).
    2:{ intros p I. apply RD. eapply Permutation_in; [exact PO | exact I]. }
    cbn [bind]. f_equal. f_equal. apply Permutation_nil. symmetry. rewrite (filter_perm _ _ _ PR), filter_app.
    rewrite (FE "dashboard" pm), (FE "dashboard" pv); [reflexivity | |];
      intros p I; eexists; (split; [first [apply TM'; exact I | apply TV'; exact I] | reflexivity]).
  - rewrite (filter_perm _ _ _ PR), filter_app. rewrite (FL "model" pm), (FE "model" pv); [rewrite app_nil_r; reflexivity | |];
      intros p I; eexists; (split; [first [apply TM'; exact I | apply TV'; exact I] | reflexivity]).
  - rewrite (filter_perm _ _ _ PR), filter_app. rewrite (FE "view" pm), (FL "view" pv); [reflexivity | |];
      intros p I; eexists; (split; [first [apply TM'; exact I | apply TV'; exact I] | reflexivity]).
Qed.
Print Assumptions C61_round_trip_partial.

Lemma ends_with_app a suf : ends_with suf (a ++ suf) = true.
Proof.
  induction a as [|c a IH]; cbn [append].
  - destruct suf; cbn [ends_with]; [reflexivity | rewrite String.eqb_refl; reflexivity].
  - cbn [ends_with]. rewrite IH. apply orb_true_r.
Qed.

Lemma last_two (a b : string) : last [a; b] "" = b. Proof. reflexivity. Qed.

Lemma not_hidden_app n suf : hidden n = false -> hidden suf = false -> hidden (n ++ suf) = false.
Proof. unfold hidden, starts_with. destruct n as [|c n]; [intros _ H; exact H|]. cbn [strip_prefix append]. destruct (Ascii.eqb "." c); [discriminate|]. intros _ _. reflexivity. Qed.

(** The files dump chooses are found when the folder they are put in is one of the project's: names
    without slash, not hidden. *)
Theorem C61_default_target_found folder n suf :
  has_char slash n = false -> hidden n = false -> In suf ["_model.yml"; "_view.yml"] ->
  glob_match folder ".yml" (path_join folder (n ++ suf)) = true.
Proof.
  intros NS NH I. assert (S : has_char slash (n ++ suf) = false).
  { rewrite has_char_app, NS. cbn in I. repeat (destruct I as [<-|I]; [reflexivity|]); destruct I. }
  assert (H : hidden (n ++ suf) = false).
  { apply not_hidden_app; [exact NH|]. cbn in I. repeat (destruct I as [<-|I]; [reflexivity|]); destruct I. }
  assert (E : ends_with ".yml" (n ++ suf) = true).
  { cbn in I. destruct I as [<-|[<-|[]]].
    - change "_model.yml" with ("_model" ++ ".yml")%string. rewrite <- append_assoc. apply ends_with_app.
    - change "_view.yml" with ("_view" ++ ".yml")%string. rewrite <- append_assoc. apply ends_with_app. }
  assert (NE : String.eqb (n ++ suf) "" = false).
  { destruct n; [|reflexivity]. cbn in I. repeat (destruct I as [<-|I]; [reflexivity|]); destruct I. }
  unfold path_join, glob_match. destruct (ends_with "/" folder) eqn:F.
  - rewrite strip_prefix_app. rewrite (split_char_nochar slash _ S). cbn [last forallb]. rewrite H, E, NE. reflexivity.
  - rewrite strip_prefix_app. change ("/" ++ (n ++ suf))%string with ("" ++ String slash (n ++ suf))%string.
    rewrite split_char_app; [|reflexivity]. rewrite (split_char_nochar slash _ S). cbn [last List.length]. rewrite H, E. reflexivity.
Qed.
Print Assumptions C61_default_target_found.

(** Files in sub folders of a folder given without a trailing slash are never found. *)
Theorem C61_nested_refuted folder sub base ext :
  ends_with "/" folder = false -> has_char slash sub = false -> has_char slash base = false ->
  glob_match folder ext (folder ++ "/" ++ sub ++ "/" ++ base) = false.
Proof.
  intros F A B. unfold glob_match. rewrite strip_prefix_app, F.
  change ("/" ++ sub ++ "/" ++ base)%string with ("" ++ String slash (sub ++ String slash base))%string.
  rewrite split_char_app; [|reflexivity]. rewrite split_char_app; [|exact A]. rewrite (split_char_nochar slash base B).
  cbn [List.length Nat.eqb]. apply andb_false_r.
Qed.
Print Assumptions C61_nested_refuted.

(** ... while the files of every folder whose name starts like it are. *)
Theorem C61_sibling_refuted folder more n :
  ends_with "/" folder = false -> has_char slash more = false -> has_char slash n = false -> hidden n = false -> n <> "" ->
  glob_match folder ".yml" (folder ++ more ++ "/" ++ n ++ ".yml") = true.
Proof.
  intros F A B H NE. unfold glob_match. rewrite strip_prefix_app, F.
  change (more ++ "/" ++ n ++ ".yml")%string with (more ++ String slash (n ++ ".yml"))%string.
  rewrite split_char_app; [|exact A]. rewrite (split_char_nochar slash (n ++ ".yml")); [|rewrite has_char_app, B; reflexivity].
  cbn [last List.length Nat.eqb]. rewrite ends_with_app.
  replace (hidden (n ++ ".yml")) with false; [reflexivity|]. symmetry.
  destruct n; [congruence|]. unfold hidden, starts_with in *. cbn [strip_prefix append] in *. destruct (Ascii.eqb "." a); [discriminate|reflexivity].
Qed.
Print Assumptions C61_sibling_refuted.

(** One empty file (or one that is not a mapping) makes the whole project unloadable. *)
Theorem C61_empty_file_refuted root f order p :
  In p order -> (forall d, assoc p f <> Some (YMap d)) -> load root f order = Err TypeError.
Proof.
  intros I N. unfold load. assert (mapM (read_file root f) order = Err TypeError) as ->; [|reflexivity].
  induction order as [|q order IH]; [destruct I|]. cbn [mapM].
  destruct (read_file root f q) as [d|e] eqn:R.
  - cbn [bind]. destruct I as [->|I].
    + unfold read_file in R. destruct (assoc p f) as [[| | | | |d']|] eqn:A; try discriminate. exfalso. apply (N d'). reflexivity.
    + rewrite (IH I). reflexivity.
  - unfold read_file in R. destruct (assoc q f) as [[| | | | |d']|]; inversion R; reflexivity.
Qed.
Print Assumptions C61_empty_file_refuted.

(** Without a zenlytic_project.yml every folder loads as an empty project, without an error. *)
Theorem C61_no_project_file_refuted root f order :
  (forall p, In p order -> exists ds, all_folders root None = Ok ds /\ found f ds p = true) ->
  load root f order = Ok ([], [], []).
Proof.
  destruct order as [|p order]; [reflexivity|]. intros H. destruct (H p (or_introl eq_refl)) as [ds [E F]].
  cbn in E. injection E as <-. unfold found in F. cbn in F. rewrite andb_false_r in F. discriminate.
Qed.
Print Assumptions C61_no_project_file_refuted.

(** A repository whose path has the letters venv in it loads as an empty project. *)
Theorem C61_venv_refuted f folders root rest : contains "venv" root = true -> found f folders (root ++ rest) = false.
Proof.
  intros C. unfold found. assert (contains "venv" (root ++ rest) = true) as ->.
  { apply contains_spec in C. destruct C as [a [b ->]]. apply contains_spec. exists a, (b ++ rest)%string.
    rewrite !append_assoc. reflexivity. }
  rewrite andb_false_r. reflexivity.
Qed.
Print Assumptions C61_venv_refuted.

(** ** A case *)
Definition ex_model : ydict := [("type", YStr "model"); ("name", YStr "m"); ("connection", YStr "wh"); ("version", YNum 1)].
Definition ex_view : ydict :=
  [("name", YStr "orders"); ("type", YStr "view"); ("owner", YStr "bob");
   ("fields", YList [YMap [("field_type", YStr "measure"); ("name", YStr "total"); ("sql", YStr "x")];
                     YMap [("name", YStr "state"); ("field_type", YStr "dimension")];
                     YMap [("name", YStr "order_id"); ("field_type", YStr "dimension")]])].
Definition ex_fs : fs := Eval vm_compute in match dump "/p/" "models" "views" [ex_model] [ex_view] [("/p/zenlytic_project.yml", YMap [])] with Ok f => f | Err _ => [] end.

Example C61_case :
  dump "/p/" "models" "views" [ex_model] [ex_view] [("/p/zenlytic_project.yml", YMap [])] = Ok ex_fs /\
  map fst ex_fs = ["/p/zenlytic_project.yml"; "/p/models/m_model.yml"; "/p/views/orders_view.yml"] /\
  forallb (found ex_fs ["/p/models"; "/p/views"]) ["/p/models/m_model.yml"; "/p/views/orders_view.yml"] = true /\
  load "/p/" ex_fs ["/p/views/orders_view.yml"; "/p/models/m_model.yml"]
  = Ok ([[("version", YNum 1); ("type", YStr "model"); ("name", YStr "m"); ("connection", YStr "wh"); ("_file_path", YStr "models/m_model.yml")]],
        [[("type", YStr "view"); ("name", YStr "orders");
          ("fields", YList [YMap [("name", YStr "order_id"); ("field_type", YStr "dimension")];
                            YMap [("name", YStr "state"); ("field_type", YStr "dimension")];
                            YMap [("name", YStr "total"); ("field_type", YStr "measure"); ("sql", YStr "x")]]);
          ("owner", YStr "bob"); ("_file_path", YStr "views/orders_view.yml")]], []).
Proof. repeat split; vm_compute; reflexivity. Qed.

(** Two views of one name are written to one file: the first is lost. *)
Theorem C61_overwrite_refuted :
  exists f1 v, dump "/p/" "models" "views" [] [ex_view; [("name", YStr "orders"); ("type", YStr "view"); ("label", YStr "new")]] [] = Ok f1 /\
    load "/p/" f1 ["/p/views/orders_view.yml"] = Ok ([], [v], []) /\ assoc "label" v = Some (YStr "new") /\ map fst f1 = ["/p/views/orders_view.yml"].
Proof. do 2 eexists. repeat split; vm_compute; reflexivity. Qed.
Print Assumptions C61_overwrite_refuted.
