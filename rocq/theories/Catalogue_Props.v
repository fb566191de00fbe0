(** C69: the catalogue of a connection, and the user it acts as. *)
From Coq Require Import List String Ascii Bool Arith Lia Permutation.
From Verif Require Import PyBase PyStr Core_Model Names_Model Names_Props Catalogue_Model.
Import ListNotations.
Local Open Scope string_scope.
Local Open Scope list_scope.

(** ** Listing *)
Section Catalogue.
  Variable p : project.
  Notation fetch := (fetch p). Notation list_of := (list_of p). Notation get_metric := (get_metric p). Notation get_dimension := (get_dimension p). Notation after_all := (after_all p).
  Definition everything (f : field_obj) : bool := true.

  (** C69: every field listed is a metric or a dimension, and none is both *)
  Theorem C69_partition k c l c1 m c2 d c3 : list_of everything k c = (Ok l, c1) -> list_of is_measure k c1 = (Ok m, c2) -> list_of is_dimension k c2 = (Ok d, c3) ->
    Permutation l (m ++ d) /\ (forall f, In f m -> fd_kind (fo_def f) = Measure) /\ (forall f, In f d -> fd_kind (fo_def f) <> Measure).
  Proof.
    unfold Catalogue_Model.list_of. intros A B C. assert (KR : key_eqb k k = true) by (unfold key_eqb; destruct k as [[x|] b]; cbn; rewrite ?String.eqb_refl, Bool.eqb_reflx; reflexivity).
    assert (F : exists l0, l = List.filter everything l0 /\ m = List.filter is_measure l0 /\ d = List.filter is_dimension l0).
    { destruct (fetch k c) as [r x] eqn:F. destruct r as [l0|e]; [|discriminate A]. injection A as <- <-. exists l0. split; [reflexivity|].
      assert (F1 : fetch k x = (Ok l0, x)).
      { unfold Catalogue_Model.fetch in *. destruct (cached k c) as [lc|] eqn:E; [injection F as -> <-; now rewrite E|]. destruct (fields p (fst k) (snd k) false) as [lf|e]; [|discriminate F]. injection F as -> <-. cbn [cached]. now rewrite KR. }
      rewrite F1 in B. injection B as <- <-. rewrite F1 in C. injection C as <- <-. auto. }
    destruct F as (l0 & -> & -> & ->). split; [|split; intros f I; apply filter_In in I; destruct I as [_ I]; revert I; unfold is_measure, is_dimension; destruct (fd_kind (fo_def f)); (reflexivity || discriminate)].
    clear. induction l0 as [|f l IH]; [constructor|]. cbn [List.filter everything]. assert (X : is_dimension f = negb (is_measure f)) by (unfold is_dimension, is_measure; destruct (fd_kind (fo_def f)); reflexivity). rewrite X. destruct (is_measure f); cbn [negb List.app]; [now constructor|]. apply Permutation_cons_app. exact IH.
  Qed.

  (** ** What calls leave in the cache *)
  (** the same field, perhaps with a timeframe chosen *)
  Definition same (f f0 : field_obj) : Prop := fo_view f = fo_view f0 /\ fo_def f = fo_def f0 /\ fo_hidden f = fo_hidden f0 /\ (fd_kind (fo_def f0) <> DimGroup -> fo_dg f = fo_dg f0).
  Lemma same_refl f : same f f. Proof. split; auto. Qed.
  Lemma same_all l : Forall2 same l l. Proof. induction l; constructor; auto using same_refl. Qed.
  Lemma same_equal f f0 n : same f f0 -> same (snd (equal f n)) f0.
  Proof.
    intros (A & B & C & D). unfold equal. destruct (field_name_parts n) as [[x vn] m]. destruct (match vn with Some v => negb (String.eqb v "") && negb (String.eqb v (fo_view f)) | None => false end); [split; auto|].
    destruct (fd_kind (fo_def f)) eqn:K; try (split; auto; fail). destruct (fo_dg f) eqn:G; cbn [snd]; [split; auto; split; auto; split; auto; rewrite G; auto|]. destruct (mem m (dimension_group_names f)); cbn [snd]; [|split; auto; split; auto; split; auto; rewrite G; auto].
    split; [exact A|]. split; [exact B|]. split; [exact C|]. intros X. exfalso. apply X. rewrite <- B. exact K.
  Qed.
  Definition good (c : cache) : Prop := forall k l, cached k c = Some l -> exists l0, fields p (fst k) (snd k) false = Ok l0 /\ Forall2 same l l0.
  Lemma key_eqb_eq a b : key_eqb a b = true -> a = b.
  Proof.
    destruct a as [[x|] b1], b as [[y|] b2]; unfold key_eqb; cbn; try discriminate; intros H.
    - apply andb_true_iff in H. destruct H as [H1 H2]. apply String.eqb_eq in H1. apply Bool.eqb_prop in H2. now subst.
    - apply Bool.eqb_prop in H. now subst.
  Qed.
  Lemma key_refl k : key_eqb k k = true.
  Proof. unfold key_eqb; destruct k as [[x|] b]; cbn; rewrite ?String.eqb_refl, Bool.eqb_reflx; reflexivity. Qed.
  Lemma good_cons k l l0 c : good c -> fields p (fst k) (snd k) false = Ok l0 -> Forall2 same l l0 -> good ((k, l) :: c).
  Proof. intros G F S k' l' H. cbn [cached] in H. destruct (key_eqb k' k) eqn:E; [|exact (G _ _ H)]. apply key_eqb_eq in E. subst k'. injection H as <-. eauto. Qed.
  Lemma fetch_good k c r c' : good c -> fetch k c = (r, c') -> good c' /\ match r with Ok l => exists l0, fields p (fst k) (snd k) false = Ok l0 /\ Forall2 same l l0 | Err e => fields p (fst k) (snd k) false = Err e end.
  Proof.
    intros G. unfold Catalogue_Model.fetch. destruct (cached k c) as [l|] eqn:E; [intros H; injection H as <- <-; split; [exact G|exact (G _ _ E)]|]. destruct (fields p (fst k) (snd k) false) as [l|e] eqn:F; intros H; injection H as <- <-; [|auto]. split; [eapply good_cons; eauto using same_all|]. exists l. auto using same_all.
  Qed.
  Lemma next_same sel n l l0 f l' : Forall2 same l l0 -> next_equal sel n l = Some (f, l') -> Forall2 same l' l0.
  Proof.
    intros S. revert f l'. induction S as [|g g0 l l0 SG S IH]; intros f l' H; cbn [next_equal] in H; [discriminate H|]. destruct (sel g && fst (equal g n)).
    - injection H as <- <-. constructor; [now apply same_equal|exact S].
    - destruct (next_equal sel n l) as [[h r]|]; [|discriminate H]. injection H as <- <-. constructor; [exact SG|]. eapply IH. reflexivity.
  Qed.
  Lemma get_good sel v n c : good c -> good (snd (get_of p sel v n c)).
  Proof.
    intros G. unfold get_of. destruct (fetch (v, false) c) as [r c'] eqn:F. destruct (fetch_good _ _ _ _ G F) as [G' R]. destruct r as [l|e]; [|exact G']. destruct R as (l0 & FL & S). destruct (next_equal sel n l) as [[f l']|] eqn:N; [|exact G']. cbn [snd]. eapply good_cons; [exact G'|exact FL|]. eapply next_same; eauto.
  Qed.
  Lemma after_good l c : good c -> good (after_all l c).
  Proof.
    revert c. induction l as [|x l IH]; intros c G; [exact G|]. cbn [Catalogue_Model.after_all]. apply IH. destruct x as [sel k|v n|v n]; cbn [after]; [|apply get_good; exact G|apply get_good; exact G].
    unfold Catalogue_Model.list_of. destruct (fetch k c) as [r c'] eqn:F. destruct (fetch_good _ _ _ _ G F) as [G' _]. destruct r; exact G'.
  Qed.
  Lemma nothing_cached : good []. Proof. intros k l H. discriminate H. Qed.

  (** C69: whatever was called before, a metric is found by its name among the metrics that are not hidden *)
  Definition metric_named (n : string) (f : field_obj) : bool := match fd_kind (fo_def f) with Measure => String.eqb (lower (fd_name (fo_def f))) n | _ => false end.
  Lemma equal_measure f n : has_char dot n = false -> is_measure f && fst (equal f n) = metric_named n f /\ (is_measure f = true -> snd (equal f n) = f).
  Proof.
    intros D. unfold equal, metric_named, is_measure. rewrite field_name_parts_plain by exact D. destruct (fd_kind (fo_def f)); cbn; auto; (split; [reflexivity|discriminate]).
  Qed.
  Lemma same_measure f f0 : same f f0 -> fd_kind (fo_def f0) = Measure -> f = f0.
  Proof. destruct f as [a b c d], f0 as [a0 b0 c0 d0]. intros (A & B & C & D) K. cbn in *. subst. f_equal. apply D. congruence. Qed.
  Lemma metric_history (q : field_obj -> bool) calls v n :
    (forall f, is_measure f && fst (equal f n) = q f) -> (forall f, is_measure f = true -> snd (equal f n) = f) -> (forall f g, fo_view f = fo_view g -> fo_def f = fo_def g -> q f = q g) ->
    fst (get_metric v n (after_all calls [])) =
    match fields p v false false with Err e => Err e | Ok l => match List.find q l with Some f => Ok f | None => Err StopIteration end end.
  Proof.
    intros E1 E2 QE. pose proof (after_good calls [] nothing_cached) as G. unfold Catalogue_Model.get_metric, get_of. destruct (fetch (v, false) (after_all calls [])) as [r c'] eqn:F. destruct (fetch_good _ _ _ _ G F) as [_ R]. cbn [fst snd] in R. destruct r as [l|e]; [|rewrite R; reflexivity]. destruct R as (l0 & -> & S).
    assert (X : match next_equal is_measure n l with Some (f, _) => Some f | None => None end = List.find q l0).
    { clear F. induction S as [|f f0 l l0 SF S IH]; [reflexivity|]. cbn [next_equal List.find]. rewrite E1. assert (M : q f = q f0) by (destruct SF as (A & B & _); auto). rewrite M. destruct (q f0) eqn:MN.
      - assert (K : is_measure f0 = true) by (rewrite <- E1 in MN; apply andb_true_iff in MN; apply MN). assert (K' : fd_kind (fo_def f0) = Measure) by (unfold is_measure in K; destruct (fd_kind (fo_def f0)); [reflexivity|discriminate K|discriminate K]). pose proof (same_measure _ _ SF K') as ->. now rewrite E2.
      - rewrite <- IH. destruct (next_equal is_measure n l) as [[g r]|]; reflexivity. }
    destruct (next_equal is_measure n l) as [[f l']|]; rewrite <- X; reflexivity.
  Qed.
  Theorem C69_metric_any_history calls v n : has_char dot n = false ->
    fst (get_metric v n (after_all calls [])) =
    match fields p v false false with Err e => Err e | Ok l => match List.find (metric_named n) l with Some f => Ok f | None => Err StopIteration end end.
  Proof.
    intros D. apply metric_history; [intros f; apply equal_measure; exact D|intros f; apply equal_measure; exact D|]. intros f g _ E. unfold metric_named. now rewrite E.
  Qed.
  (** C69: and with the name of a view before it, among the metrics of that view *)
  Theorem C69_metric_of_view calls v w n : has_char dot n = false -> has_char dot w = false -> w <> "" ->
    fst (get_metric v (w ++ "." ++ n) (after_all calls [])) =
    match fields p v false false with Err e => Err e | Ok l => match List.find (fun f => String.eqb w (fo_view f) && metric_named n f) l with Some f => Ok f | None => Err StopIteration end end.
  Proof.
    intros D V W. assert (Q : forall f, equal f (w ++ "." ++ n) = if String.eqb w (fo_view f) then equal f n else (false, f)).
    { intros f. unfold equal. change (w ++ "." ++ n)%string with (w ++ String dot n)%string. rewrite field_name_parts_qualified, field_name_parts_plain by auto. assert (V0 : String.eqb w "" = false) by (now apply String.eqb_neq). rewrite V0. cbn [negb andb]. destruct (String.eqb w (fo_view f)); reflexivity. }
    apply metric_history.
    - intros f. rewrite Q. destruct (equal_measure f n D) as [E _]. destruct (String.eqb w (fo_view f)); cbn [andb fst]; [exact E|apply andb_false_r].
    - intros f M. rewrite Q. destruct (String.eqb w (fo_view f)); [now apply equal_measure|reflexivity].
    - intros f g A B. unfold metric_named. now rewrite A, B.
  Qed.
  (** C69: whatever was called before, the same names are listed *)
  Theorem C69_names_any_history calls sel k : (forall f g, fo_def f = fo_def g -> sel f = sel g) ->
    match fst (list_of sel k (after_all calls [])) with Err e => fields p (fst k) (snd k) false = Err e | Ok l => exists l0, fields p (fst k) (snd k) false = Ok l0 /\ map (fun f => (fo_view f, fo_name f)) l = map (fun f => (fo_view f, fo_name f)) (List.filter sel l0) end.
  Proof.
    intros SE. pose proof (after_good calls [] nothing_cached) as G. unfold Catalogue_Model.list_of. destruct (fetch k (after_all calls [])) as [r c'] eqn:F. destruct (fetch_good _ _ _ _ G F) as [_ R]. destruct r as [l|e]; [|exact R]. destruct R as (l0 & FL & S). exists l0. split; [exact FL|]. clear F FL.
    induction S as [|f f0 l l0 SF S IH]; [reflexivity|]. destruct SF as (V & B & _). cbn [List.filter]. rewrite (SE f f0 B). destruct (sel f0); cbn [map]; [|exact IH]. rewrite IH. unfold fo_name. now rewrite V, B.
  Qed.

  (** ** Dimensions *)
  Definition dimension_named (n : string) (f : field_obj) : Prop := fd_kind (fo_def f) <> Measure /\ answers_to f n.
  Lemma sel_dimension f n : has_char dot n = false -> (is_dimension f && fst (equal f n) = true <-> dimension_named n f).
  Proof. intros D. rewrite andb_true_iff, (equal_core f n D). unfold is_dimension, dimension_named. destruct (fd_kind (fo_def f)); split; intros [A B]; split; auto; try discriminate; congruence. Qed.
  Lemma next_at sel n l1 f l2 : (forall g, In g l1 -> sel g && fst (equal g n) = false) -> sel f && fst (equal f n) = true -> next_equal sel n (l1 ++ f :: l2) = Some (snd (equal f n), l1 ++ snd (equal f n) :: l2).
  Proof. intros N H. induction l1 as [|g l1 IH]; cbn [List.app next_equal]; [now rewrite H|]. rewrite N by now left. rewrite IH; [reflexivity|]. intros x X. apply N. now right. Qed.
  Lemma next_none sel n l : (forall g, In g l -> sel g && fst (equal g n) = false) -> next_equal sel n l = None.
  Proof. intros N. induction l as [|g l IH]; cbn [next_equal]; [reflexivity|]. rewrite N by now left. rewrite IH; [reflexivity|]. intros x X. apply N. now right. Qed.
  Lemma not_named f n : has_char dot n = false -> ~ dimension_named n f -> is_dimension f && fst (equal f n) = false.
  Proof. intros D N. destruct (is_dimension f && fst (equal f n)) eqn:E; [|reflexivity]. exfalso. apply N. now apply sel_dimension. Qed.
  (** C69: the first time, a dimension is found by any of its names *)
  Theorem C69_dimension_first v n l1 f l2 : has_char dot n = false -> fields p v false false = Ok (l1 ++ f :: l2) -> dimension_named n f -> (forall g, In g l1 -> ~ dimension_named n g) ->
    exists g, fst (get_dimension v n []) = Ok g /\ fo_view g = fo_view f /\ fo_def g = fo_def f.
  Proof.
    intros D F H N. unfold Catalogue_Model.get_dimension, get_of, Catalogue_Model.fetch. cbn [cached fst snd]. rewrite F. rewrite next_at; [|intros g I; apply not_named; auto|now apply sel_dimension]. eexists. split; [reflexivity|]. destruct (same_equal f f n (same_refl f)) as (A & B & _). auto.
  Qed.
  (** after a group was asked for in one timeframe it is not found in another *)
  Theorem C69_dimension_again_refuted v l1 f l2 t1 t2 : let n t := (fo_name f ++ "_" ++ t)%string in
    fields p v false false = Ok (l1 ++ f :: l2) -> fd_kind (fo_def f) = DimGroup -> fd_type (fo_def f) = "time" -> fo_dg f = None ->
    In t1 (fd_timeframes (fo_def f)) -> In t2 (fd_timeframes (fo_def f)) -> t1 <> t2 -> contains (fo_name f ++ "_") t1 = false -> has_char dot (n t1) = false -> has_char dot (n t2) = false ->
    (forall g t, In g (l1 ++ l2) -> In t [t1; t2] -> ~ dimension_named (n t) g) ->
    (exists g, fst (get_dimension v (n t2) []) = Ok g) /\ fst (get_dimension v (n t2) (snd (get_dimension v (n t1) []))) = Err StopIteration.
  Proof.
    intros n F K T G I1 I2 NE C D1 D2 N.
    assert (NM : forall t, In t (fd_timeframes (fo_def f)) -> dimension_named (n t) f) by (intros t I; split; [congruence|]; unfold answers_to; rewrite K, G, T; left; split; [reflexivity|]; exists t; auto).
    split.
    { destruct (C69_dimension_first v (n t2) l1 f l2 D2 F (NM _ I2)) as (g & A & _); [|eauto]. intros g I. apply N; [apply in_app_iff; now left|right; now left]. }
    unfold Catalogue_Model.get_dimension at 2. unfold get_of at 1, Catalogue_Model.fetch at 1. cbn [cached fst snd]. rewrite F. rewrite next_at; [|intros g I; apply not_named; [exact D1|]; apply N; [apply in_app_iff; now left|now left]|apply sel_dimension; auto].
    assert (S : snd (equal f (n t1)) = FieldObj (fo_view f) (fo_def f) (Some t1) (fo_hidden f)).
    { unfold equal. rewrite field_name_parts_plain by exact D1. rewrite K, G. assert (M : mem (n t1) (dimension_group_names f) = true) by (unfold dimension_group_names; rewrite K, T; apply mem_In, in_map_iff; exists t1; auto). rewrite M. cbn [snd]. f_equal. apply (C40_timeframe_recovered f (n t1) t1 T eq_refl). exact C. }
    rewrite S. cbn [snd]. unfold Catalogue_Model.get_dimension, get_of, Catalogue_Model.fetch. cbn [cached fst snd]. rewrite key_refl. rewrite next_none; [reflexivity|].
    intros g I. apply not_named; [exact D2|]. apply in_app_iff in I. destruct I as [I|[<-|I]]; [apply N; [apply in_app_iff; now left|right; now left]| |apply N; [apply in_app_iff; now right|right; now left]].
    intros [_ A]. unfold answers_to in A. cbn [fo_def fo_dg] in A. rewrite K, T in A. destruct A as [[_ A]|[[A _]|[A _]]]; [|discriminate A|now apply A]. unfold n, fo_name in A. apply append_inj_l in A. apply append_inj_l in A. congruence.
  Qed.
End Catalogue.

(** ** Users *)
Section Life.
  Variable U : Type.
  Notation op := (op U). Notation world := (world U). Notation run := (run U). Notation step := (step U).
  (** the user last given to connection [i], and the connections added to it *)
  Fixpoint last_user (i : nat) (l : list op) (u : option U) : option U :=
    match l with
    | [] => u
    | New _ j _ _ x _ :: r => last_user i r (if Nat.eqb j i then x else u)
    | SetUser _ j x :: r => last_user i r (if Nat.eqb j i then x else u)
    | _ :: r => last_user i r u
    end.
  Fixpoint given (i : nat) (l : list op) (names : list string) : list string :=
    match l with
    | [] => names
    | New _ j _ _ _ x :: r => given i r (if Nat.eqb j i then x else names)
    | Add _ j x :: r => given i r (if Nat.eqb j i then names ++ x else names)
    | _ :: r => given i r names
    end.
  (** every project is given to one connection only *)
  Definition unshared (o : op) (w : world) : Prop :=
    match o with New _ _ _ (Some r) _ _ => r < w_next U w /\ forall j c, w_conns U w j = Some c -> c_project U c <> Some r | _ => True end.
  Fixpoint all_unshared (l : list op) (w : world) : Prop := match l with [] => True | o :: r => unshared o w /\ all_unshared r (snd (step o w)) end.
  Record fine (w : world) : Prop := {
    f_known : forall i c r, w_conns U w i = Some c -> c_project U c = Some r -> r < w_next U w;
    f_own : forall i j c d r, w_conns U w i = Some c -> w_conns U w j = Some d -> c_project U c = Some r -> c_project U d = Some r -> i = j;
    f_user : forall i c r, w_conns U w i = Some c -> c_project U c = Some r -> pr_user U (w_projects U w r) = c_user U c }.
  Lemma set_eq {A} i (x : A) m j : set i x m j = if Nat.eqb i j then x else m j. Proof. reflexivity. Qed.
  Ltac sets := repeat (cbn [c_project c_user c_raw pr_user with_user] in *; match goal with
    | H : context [set ?i ?x ?m ?j] |- _ => rewrite (set_eq i x m j) in H
    | |- context [set ?i ?x ?m ?j] => rewrite (set_eq i x m j)
    | H : context [Nat.eqb ?a ?b] |- _ => destruct (Nat.eqb_spec a b)
    | |- context [Nat.eqb ?a ?b] => destruct (Nat.eqb_spec a b)
    | H : Some _ = Some _ |- _ => inversion H; subst; clear H
    end); subst; cbn [c_project c_user c_raw pr_user with_user] in *.
  Lemma step_fine o w : fine w -> unshared o w -> fine (snd (step o w)).
  Proof.
    intros [K O P] S. destruct o as [names|i loc [r|] u raw|i u|i works|i names]; cbn [Catalogue_Model.step].
    - cbn [snd]. split; cbn [w_conns w_projects w_next]; [intros i c r A B; specialize (K i c r A B); lia|exact O|]. intros i c r A B. specialize (K i c r A B). sets; [lia|eauto].
    - destruct S as [S1 S2]. cbn [snd]. split; cbn [w_conns w_projects w_next].
      + intros j c x A B. sets; eauto.
      + intros j k c d x A B C D. sets; try reflexivity; try (exfalso; eapply S2; eauto; fail); eauto.
      + intros j c x A B. sets; try reflexivity; try congruence; eauto. exfalso. eapply S2; eauto.
    - cbn [snd]. split; cbn [w_conns w_projects w_next]; intros; sets; try discriminate; eauto.
    - destruct (w_conns U w i) as [c0|] eqn:E; [|split; auto]. destruct (c_project U c0) as [r0|] eqn:R; cbn [snd]; (split; cbn [w_conns w_projects w_next]); intros; sets; try congruence; eauto. exfalso. eauto.
    - destruct (w_conns U w i) as [c0|] eqn:E; [|split; auto]. destruct (c_location U c0); [|destruct (c_passed U c0); split; auto]. destruct works; [|split; auto]. cbn [snd]. split; cbn [w_conns w_projects w_next].
      + intros j c x A B. sets; [lia|]. specialize (K _ _ _ A B). lia.
      + intros j k c d x A B C D. sets; try reflexivity; try (exfalso; match goal with H1 : w_conns U w ?a = Some ?b, H2 : c_project U ?b = Some (w_next U w) |- _ => specialize (K _ _ _ H1 H2); lia end); eauto.
      + intros j c x A B. sets; try reflexivity; try congruence; eauto. specialize (K _ _ _ A B). lia.
    - destruct (w_conns U w i) as [c0|] eqn:E; [|split; auto]. cbn [snd]. split; cbn [w_conns w_projects w_next]; intros; sets; eauto.
  Qed.
  Lemma run_fine l w : fine w -> all_unshared l w -> fine (run l w).
  Proof. revert w. induction l as [|o l IH]; intros w F S; [exact F|]. destruct S as [S1 S2]. cbn [Catalogue_Model.run]. apply IH; [now apply step_fine|exact S2]. Qed.
  Lemma step_user o w i u : (forall c, w_conns U w i = Some c -> c_user U c = u) -> forall c, w_conns U (snd (step o w)) i = Some c -> c_user U c = last_user i [o] u.
  Proof.
    intros H c. destruct o as [names|j loc pr x raw|j x|j works|j names]; cbn [Catalogue_Model.step last_user].
    - apply H.
    - cbn [snd w_conns]. intros A. sets; auto.
    - destruct (w_conns U w j) as [d|] eqn:E; [destruct (c_project U d)|]; cbn [snd w_conns]; intros A; sets; auto. congruence.
    - destruct (w_conns U w j) as [d|] eqn:E; [|apply H]. destruct (c_location U d); [|destruct (c_passed U d); apply H]. destruct works; [|apply H]. cbn [snd w_conns]. intros A. sets; auto.
    - destruct (w_conns U w j) as [d|] eqn:E; [|apply H]. cbn [snd w_conns]. intros A. sets; auto.
  Qed.
  Lemma run_user l : forall w i u, (forall c, w_conns U w i = Some c -> c_user U c = u) -> forall c, w_conns U (run l w) i = Some c -> c_user U c = last_user i l u.
  Proof.
    induction l as [|o l IH]; intros w i u H c A; [exact (H c A)|]. cbn [Catalogue_Model.run] in A. pose proof (IH (snd (step o w)) i (last_user i [o] u) (step_user o w i u H) c A) as X. destruct o; exact X.
  Qed.
  (** C69: a connection acts as the user it was last given, if its project is its own *)
  Theorem C69_acts_as_its_user l i u : all_unshared l (nothing U) -> acts_as U (run l (nothing U)) i = Some u -> u = last_user i l None.
  Proof.
    intros S A. assert (F : fine (run l (nothing U))) by (apply run_fine; [split; cbn; discriminate|exact S]). unfold acts_as in A. destruct (w_conns U (run l (nothing U)) i) as [c|] eqn:C; [|discriminate A]. destruct (c_project U c) as [r|] eqn:R; [|discriminate A]. injection A as <-. rewrite (f_user _ F i c r C R).
    apply (run_user l (nothing U) i None); [cbn; discriminate|exact C].
  Qed.
  (** a project given to two connections makes the first act as the user of the second *)
  Theorem C69_shared_project_refuted u1 u2 : let w := run [Build U []; New U 0 None (Some 0) u1 []; New U 1 None (Some 0) u2 []] (nothing U) in
    acts_as U w 0 = Some u2 /\ last_user 0 [Build U []; New U 0 None (Some 0) u1 []; New U 1 None (Some 0) u2 []] None = u1.
  Proof. split; reflexivity. Qed.
  (** a connection without project or location does not say so *)
  Theorem C69_nothing_to_load_refuted u raw works : fst (step (Opens U 0 works) (run [New U 0 None None u raw] (nothing U))) = Err AttributeError.
  Proof. reflexivity. Qed.
  (** C69: the connections listed are those given and those added, in order *)
  Lemma step_given o w i names : (forall c, w_conns U w i = Some c -> c_raw U c = names) -> forall c, w_conns U (snd (step o w)) i = Some c -> c_raw U c = given i [o] names.
  Proof.
    intros H c. destruct o as [ns|j loc pr x raw|j x|j works|j ns]; cbn [Catalogue_Model.step given].
    - apply H.
    - cbn [snd w_conns]. intros A. sets; auto.
    - destruct (w_conns U w j) as [d|] eqn:E; [destruct (c_project U d)|]; cbn [snd w_conns]; intros A; sets; auto.
    - destruct (w_conns U w j) as [d|] eqn:E; [|apply H]. destruct (c_location U d); [|destruct (c_passed U d); apply H]. destruct works; [|apply H]. cbn [snd w_conns]. intros A. sets; auto.
    - destruct (w_conns U w j) as [d|] eqn:E; cbn [snd w_conns]; intros A; sets; auto; [cbn [c_raw]; now rewrite (H d E)|congruence].
  Qed.
  Theorem C69_connections l i c : w_conns U (run l (nothing U)) i = Some c -> c_raw U c = given i l [].
  Proof.
    assert (R : forall l w i names, (forall c, w_conns U w i = Some c -> c_raw U c = names) -> forall c, w_conns U (run l w) i = Some c -> c_raw U c = given i l names).
    { clear. induction l as [|o l IH]; intros w i names H c A; [exact (H c A)|]. cbn [Catalogue_Model.run] in A. pose proof (IH (snd (step o w)) i (given i [o] names) (step_given o w i names H) c A) as X. destruct o; exact X. }
    apply R. cbn. discriminate.
  Qed.
  (** a connection added after the project was loaded is listed, but the project does not know it *)
  Theorem C69_added_connection_refuted loc u raw x : ~ In x raw -> let w := run [New U 0 (Some loc) None u raw; Opens U 0 true; Add U 0 [x]] (nothing U) in
    (exists c, w_conns U w 0 = Some c /\ In x (c_raw U c)) /\ exists c r, w_conns U w 0 = Some c /\ c_project U c = Some r /\ ~ In x (pr_lookup U (w_projects U w r)).
  Proof.
    intros N. cbn. split; [eexists; split; [reflexivity|]; cbn; apply in_app_iff; right; now left|]. do 2 eexists. split; [reflexivity|]. split; [reflexivity|]. exact N.
  Qed.
End Life.

(** ** Against get_field, and cases *)
Definition field_ (n : string) (k : fkind) (t : string) (tf : list string) (h : bool) : field_def := FieldDef n k t tf [] h [] false [].
Definition shop : project := Project []
  [ViewDef "orders" false [] [field_ "Revenue" Measure "sum" [] false; field_ "cost" Measure "sum" [] true; field_ "order" DimGroup "time" ["date"; "month"] false; field_ "region" Dimension "string" [] false] [];
   ViewDef "refunds" false [] [field_ "revenue" Measure "sum" [] false] []] [] None.
(** a name that two metrics have is answered with the first of them, where get_field refuses *)
Theorem C69_same_name_refuted : exists p n f, fst (get_metric p None n []) = Ok f /\ get_field p n None = Err QueryError.
Proof. exists shop, "revenue". eexists. split; vm_compute; reflexivity. Qed.
(** a hidden metric is not found, where get_field finds it *)
Theorem C69_hidden_refuted : exists p n f, fst (get_metric p None n []) = Err StopIteration /\ get_field p n None = Ok f /\ fd_kind (fo_def f) = Measure.
Proof. exists shop, "cost". eexists. split; [|split]; vm_compute; reflexivity. Qed.
(** a name with capitals is not found, even the name as the project writes it *)
Theorem C69_capitals_refuted : exists p n f, fst (get_metric p (Some "orders") n []) = Err StopIteration /\ get_field p n (Some "orders") = Ok f /\ fd_kind (fo_def f) = Measure /\ fd_name (fo_def f) = n.
Proof. exists shop, "Revenue". eexists. split; [|split; [|split]]; vm_compute; reflexivity. Qed.

Example C69_listed : exists l m d c1 c2 c3, list_of shop everything (Some "orders", false) [] = (Ok l, c1) /\ list_of shop is_measure (Some "orders", false) c1 = (Ok m, c2) /\ list_of shop is_dimension (Some "orders", false) c2 = (Ok d, c3) /\ List.length l = 3 /\ List.length m = 1 /\ List.length d = 2.
Proof. do 6 eexists. split; [vm_compute; reflexivity|]. split; [vm_compute; reflexivity|]. split; [vm_compute; reflexivity|]. now vm_compute. Qed.
Example C69_found_after_calls : has_char dot "revenue" = false /\ exists f, fst (get_metric shop None "revenue" (after_all shop [LDimension None "order_date"; LList is_measure (None, false); LMetric None "cost"] [])) = Ok f /\ fo_view f = "orders".
Proof. split; [reflexivity|]. eexists. split; vm_compute; reflexivity. Qed.
Example C69_found_in_view : exists f, fst (get_metric shop None "refunds.revenue" (after_all shop [LMetric None "revenue"] [])) = Ok f /\ fo_view f = "refunds".
Proof. eexists. split; vm_compute; reflexivity. Qed.
Example C69_same_names_after_calls : exists l, fst (list_of shop is_dimension (None, false) (after_all shop [LDimension None "order_date"] [])) = Ok l /\ map fo_name l = ["order"; "region"].
Proof. eexists. split; vm_compute; reflexivity. Qed.
(** the hypotheses of the refutation hold of the shop: the group order in its two timeframes *)
Example C69_month_after_date :
  (exists g, fst (get_dimension shop None "order_month" []) = Ok g) /\ fst (get_dimension shop None "order_month" (snd (get_dimension shop None "order_date" []))) = Err StopIteration.
Proof.
  assert (F : exists l1 f l2, fields shop None false false = Ok (l1 ++ f :: l2) /\ l1 = firstn 1 l1 /\ fo_name f = "order" /\ fd_kind (fo_def f) = DimGroup /\ fd_type (fo_def f) = "time" /\ fo_dg f = None /\ fd_timeframes (fo_def f) = ["date"; "month"] /\
    forall g, In g (l1 ++ l2) -> fd_kind (fo_def g) <> DimGroup /\ lower (fd_name (fo_def g)) <> "order_date" /\ lower (fd_name (fo_def g)) <> "order_month").
  { set (v := match fields shop None false false with Ok l => l | _ => [] end). exists (firstn 1 v), (nth 1 v (FieldObj "" (field_ "" Measure "" [] false) None false)), (skipn 2 v). repeat (split; [vm_compute; reflexivity|]).
    intros g I. vm_compute in I. destruct I as [<-|[<-|[<-|[]]]]; repeat split; discriminate. }
  destruct F as (l1 & f & l2 & F & _ & N & K & T & G & TF & O). pose proof (C69_dimension_again_refuted shop None l1 f l2 "date" "month") as X. cbv zeta in X. rewrite N in X. apply X; auto; try (rewrite TF; cbn; tauto); try reflexivity; try discriminate.
  intros g t I J [_ A]. destruct (O g I) as (O1 & O2 & O3). unfold answers_to in A. destruct (fd_kind (fo_def g)) eqn:KG; [| |congruence]; destruct J as [<-|[<-|[]]]; cbn in A; congruence.
Qed.
Example C69_two_users : let l := [New nat 0 (Some "a") None (Some 1) []; New nat 1 (Some "a") None (Some 2) []; Opens nat 0 true; Opens nat 1 true; SetUser nat 0 (Some 3)] in
  all_unshared nat l (nothing nat) /\ acts_as nat (run nat l (nothing nat)) 0 = Some (Some 3) /\ acts_as nat (run nat l (nothing nat)) 1 = Some (Some 2).
Proof. split; [cbn; tauto|split; reflexivity]. Qed.
Example C69_given_project : let l := [Build nat []; New nat 0 None (Some 0) (Some 1) ["a"]; Add nat 0 ["b"]; SetUser nat 0 (Some 3)] in
  all_unshared nat l (nothing nat) /\ acts_as nat (run nat l (nothing nat)) 0 = Some (Some 3) /\ exists c, w_conns nat (run nat l (nothing nat)) 0 = Some c /\ c_raw nat c = ["a"; "b"].
Proof. split; [cbn; repeat split; auto; discriminate|]. split; [reflexivity|]. eexists. split; reflexivity. Qed.

Print Assumptions C69_partition.
Print Assumptions C69_metric_any_history.
Print Assumptions C69_metric_of_view.
Print Assumptions C69_names_any_history.
Print Assumptions C69_dimension_first.
Print Assumptions C69_dimension_again_refuted.
Print Assumptions C69_acts_as_its_user.
Print Assumptions C69_shared_project_refuted.
Print Assumptions C69_nothing_to_load_refuted.
Print Assumptions C69_connections.
Print Assumptions C69_added_connection_refuted.
Print Assumptions C69_same_name_refuted.
Print Assumptions C69_hidden_refuted.
Print Assumptions C69_capitals_refuted.
