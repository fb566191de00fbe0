(** Lemmas for MergedDerive_Props. *)
From Verif Require Import PyBase PyStr PySort PyReplace Merged_Model MergedDerive_Model.
From Coq Require Import Lia.
Local Open Scope string_scope.
Local Open Scope list_scope.
Local Open Scope nat_scope.

(** ** Splitting on "subquery" *)
Definition sq : string := "subquery".

Lemma split_fuel_enough sep : sep <> "" -> forall f f' cur s,
  String.length s < f -> String.length s < f' -> split_fuel f sep cur s = split_fuel f' sep cur s.
Proof.
  intros N. assert (P : 0 < String.length sep) by (destruct sep; [congruence|simpl; lia]).
  induction f as [|f IH]; intros [|f'] cur s L L'; try lia. cbn [split_fuel].
  destruct (strip_prefix sep s) as [r|] eqn:E.
  - apply strip_prefix_length in E. f_equal. apply IH; lia.
  - destruct s as [|a s]; [reflexivity|]. simpl in L, L'. apply IH; lia.
Qed.
Definition split_from (sep cur s : string) : list string := split_fuel (S (String.length s)) sep cur s.
Lemma split_from_unfold sep cur s : sep <> "" ->
  split_from sep cur s =
  match strip_prefix sep s with
  | Some r => cur :: split_from sep "" r
  | None => match s with
            | EmptyString => [cur]
            | String a r => split_from sep (cur ++ String a "")%string r
            end
  end.
Proof.
  intros N. unfold split_from at 1. cbn [split_fuel]. destruct (strip_prefix sep s) as [r|] eqn:E.
  - f_equal. apply split_fuel_enough; auto; try lia. apply strip_prefix_length in E.
    assert (0 < String.length sep) by (destruct sep; [congruence|simpl; lia]). lia.
  - destruct s as [|a s]; [reflexivity|]. apply split_fuel_enough; auto; simpl; lia.
Qed.

(** "subquery" does not overlap itself *)
Lemma sq_no_overlap a b r : a <> "" -> strip_prefix sq (a ++ sq ++ b)%string = Some r ->
  exists a', strip_prefix sq a = Some a' /\ r = (a' ++ sq ++ b)%string.
Proof.
  intros N H. apply strip_prefix_some in H. unfold sq in *.
  destruct a as [|c1 a]; [congruence|].
  do 7 (destruct a as [|? a]; [exfalso; cbn in H; injection H; intros; discriminate|]).
  exists a. cbn in H. injection H as -> -> -> -> -> -> -> -> H.
  split; [reflexivity|]. rewrite <- H. reflexivity.
Qed.

Lemma split_app_sq b n : forall a cur, String.length a <= n ->
  split_from sq cur (a ++ sq ++ b)%string = split_from sq cur a ++ split_from sq "" b.
Proof.
  assert (NS : sq <> "") by discriminate.
  induction n as [|n IH]; intros a cur L.
  - destruct a; [|simpl in L; lia]. change ("" ++ sq ++ b)%string with (sq ++ b)%string.
    rewrite (split_from_unfold sq cur (sq ++ b)%string NS), strip_prefix_app. reflexivity.
  - destruct a as [|c a].
    { change ("" ++ sq ++ b)%string with (sq ++ b)%string. rewrite (split_from_unfold sq cur (sq ++ b)%string NS), strip_prefix_app. reflexivity. }
    rewrite (split_from_unfold sq cur (String c a) NS).
    rewrite (split_from_unfold sq cur (String c a ++ sq ++ b)%string NS).
    destruct (strip_prefix sq (String c a ++ sq ++ b)%string) as [r|] eqn:E.
    + destruct (sq_no_overlap (String c a) b r) as (a' & E' & ->); [discriminate|exact E|].
      rewrite E'. simpl. f_equal. apply IH. apply strip_prefix_length in E'. simpl in L, E'. lia.
    + destruct (strip_prefix sq (String c a)) as [r'|] eqn:E'.
      * apply strip_prefix_some in E'. rewrite E' in E. rewrite append_assoc, strip_prefix_app in E. discriminate.
      * change (String c a ++ sq ++ b)%string with (String c (a ++ sq ++ b)). apply IH. simpl in L. lia.
Qed.
Lemma split_sq a b : split_str sq (a ++ sq ++ b)%string = split_str sq a ++ split_str sq b.
Proof. apply (split_app_sq b (String.length a)). lia. Qed.

(** Digits and underscores *)
Lemma all_digits_app a b : all_digits (a ++ b)%string = all_digits a && all_digits b.
Proof. induction a as [|c a IH]; simpl; [reflexivity|]. rewrite IH, andb_assoc. reflexivity. Qed.
Lemma digit_digitb d : d < 10 -> digitb (digit d) = true.
Proof. intros L. unfold digitb. rewrite (nat_of_digit d L). apply andb_true_intro. split; apply Nat.leb_le; lia. Qed.
Lemma nat_str_fuel_digits f : forall n acc, all_digits acc = true -> all_digits (nat_str_fuel f n acc) = true.
Proof.
  induction f as [|f IH]; intros n acc H; cbn [nat_str_fuel]; [exact H|].
  assert (D : all_digits (String (digit (n mod 10)) acc) = true).
  { cbn [all_digits]. rewrite H, digit_digitb; [reflexivity|]. apply Nat.mod_upper_bound. discriminate. }
  destruct (n <? 10); [exact D|]. apply IH. exact D.
Qed.
Lemma nat_str_digits n : all_digits (nat_str n) = true.
Proof. apply nat_str_fuel_digits. reflexivity. Qed.
Lemma nat_str_nonempty n : nat_str n <> "".
Proof.
  unfold nat_str. intros E. assert (H : forall f m acc, acc <> "" \/ f <> 0 -> nat_str_fuel f m acc <> "").
  { induction f as [|f IH]; intros m acc [N|N]; cbn [nat_str_fuel]; try congruence;
      (destruct (m <? 10); [discriminate|]; apply IH; left; discriminate). }
  exact (H (S n) n "" (or_intror (Nat.neq_succ_0 n)) E).
Qed.
Lemma nat_str_isdigit n : isdigit (nat_str n) = true.
Proof.
  unfold isdigit. rewrite nat_str_digits, andb_true_r. destruct (String.eqb (nat_str n) "") eqn:E; [|reflexivity].
  apply String.eqb_eq in E. destruct (nat_str_nonempty n E).
Qed.

Lemma digitb_us : digitb "_" = false. Proof. reflexivity. Qed.
Lemma rstrip_digits s t : all_digits s = true -> s <> "" -> rstrip_us (s ++ t)%string = (s ++ rstrip_us t)%string.
Proof.
  induction s as [|c s IH]; intros D N; [congruence|]. simpl in D. apply andb_prop in D. destruct D as [D1 D2].
  simpl. destruct s as [|c' s].
  - simpl. destruct (rstrip_us t) as [|x y]; [|reflexivity].
    destruct (Ascii.eqb c "_") eqn:E; [|reflexivity]. apply Ascii.eqb_eq in E. subst. discriminate.
  - rewrite IH; [reflexivity|exact D2|discriminate].
Qed.
Lemma lstrip_digits s : all_digits s = true -> lstrip_us s = s.
Proof.
  destruct s as [|c s]; intros D; [reflexivity|]. simpl in D. apply andb_prop in D. destruct D as [D _].
  cbn [lstrip_us].
  destruct c as [b0 b1 b2 b3 b4 b5 b6 b7].
  destruct b0, b1, b2, b3, b4, b5, b6, b7; try reflexivity; discriminate D.
Qed.
Lemma strip_digits n t : rstrip_us t = "" -> strip_us ("_" ++ nat_str n ++ t)%string = nat_str n.
Proof.
  intros T. unfold strip_us. simpl append. cbn [rstrip_us].
  rewrite (rstrip_digits _ _ (nat_str_digits n) (nat_str_nonempty n)), T, append_nil_r.
  destruct (nat_str n) as [|c s] eqn:E; [destruct (nat_str_nonempty n E)|].
  change (lstrip_us (String "_" (String c s))) with (lstrip_us (String c s)).
  rewrite <- E. apply lstrip_digits, nat_str_digits.
Qed.

(** A text of digits and underscores is not split *)
Fixpoint du (s : string) : bool :=
  match s with EmptyString => true | String a r => (digitb a || Ascii.eqb a "_") && du r end.
Lemma du_app a b : du (a ++ b)%string = du a && du b.
Proof. induction a as [|c a IH]; simpl; [reflexivity|]. rewrite IH, andb_assoc. reflexivity. Qed.
Lemma digits_du s : all_digits s = true -> du s = true.
Proof.
  induction s as [|c s IH]; simpl; intros H; [reflexivity|]. apply andb_prop in H. destruct H as [H1 H2].
  rewrite H1, (IH H2). reflexivity.
Qed.
Lemma split_du s : du s = true -> forall cur, split_from sq cur s = [(cur ++ s)%string].
Proof.
  induction s as [|c s IH]; intros D cur; rewrite split_from_unfold by discriminate.
  - simpl. rewrite append_nil_r. reflexivity.
  - simpl in D. apply andb_prop in D. destruct D as [D1 D2].
    assert (NS : Ascii.eqb "s" c = false).
    { destruct (Ascii.eqb "s" c) eqn:E; [|reflexivity]. apply Ascii.eqb_eq in E. subst c. discriminate D1. }
    unfold sq at 1. cbn [strip_prefix]. rewrite NS. rewrite (IH D2). rewrite append_assoc. reflexivity.
Qed.

(** The sub queries named in "<prefix>subquery_a_subquery_b..." *)
Definition sub_name (n : nat) : string := ("subquery_" ++ nat_str n)%string.
Lemma hash_subs_app a b : hash_subqueries (a ++ sq ++ b)%string = hash_subqueries a ++ hash_subqueries b.
Proof. unfold hash_subqueries. change "subquery" with sq. rewrite split_sq, flat_map_app. reflexivity. Qed.
Lemma hash_subs_num n t : du t = true -> rstrip_us t = "" -> hash_subqueries ("_" ++ nat_str n ++ t)%string = [sub_name n].
Proof.
  intros D T. unfold hash_subqueries. change (split_str "subquery" ("_" ++ nat_str n ++ t)%string)
    with (split_from sq "" ("_" ++ nat_str n ++ t)%string).
  rewrite split_du.
  - simpl flat_map. change (String "_" (nat_str n ++ t)) with ("_" ++ nat_str n ++ t)%string.
    rewrite (strip_digits n t T), nat_str_isdigit. reflexivity.
  - rewrite !du_app, D, (digits_du _ (nat_str_digits n)). reflexivity.
Qed.
Lemma hash_subs_join ns : ns <> [] -> forall p,
  hash_subqueries (p ++ join_with "_" (map sub_name ns))%string = hash_subqueries p ++ map sub_name ns.
Proof.
  induction ns as [|n ns IH]; intros N p; [congruence|]. destruct ns as [|n' ns].
  - simpl join_with. unfold sub_name at 1. change "subquery_" with (sq ++ "_")%string.
    rewrite append_assoc, hash_subs_app. f_equal.
    rewrite <- (append_nil_r (nat_str n)). rewrite hash_subs_num by reflexivity. reflexivity.
  - change (join_with "_" (map sub_name (n :: n' :: ns)))
      with (sub_name n ++ "_" ++ join_with "_" (map sub_name (n' :: ns)))%string.
    rewrite <- !append_assoc. rewrite (IH ltac:(discriminate)).
    unfold sub_name at 1. change "subquery_" with (sq ++ "_")%string.
    rewrite !append_assoc. rewrite hash_subs_app. rewrite hash_subs_num by reflexivity.
    rewrite <- app_assoc. reflexivity.
Qed.
Lemma hash_contains_own p ns n : In n ns ->
  forall graphs, In (sub_name n) graphs -> hash_contains (p ++ join_with "_" (map sub_name ns))%string graphs = true.
Proof.
  intros I graphs J. unfold hash_contains. apply existsb_exists. exists (sub_name n). split; [exact J|].
  apply mem_In. rewrite hash_subs_join by (destruct ns; [destruct I|discriminate]).
  apply in_or_app. right. apply in_map. exact I.
Qed.

(** ** Dictionaries of lists *)
Lemma assoc_set_item {B} k k' (v : B) d : assoc k (set_item k' v d) = if String.eqb k k' then Some v else assoc k d.
Proof.
  induction d as [|[q w] d IH]; simpl.
  - destruct (String.eqb k k'); reflexivity.
  - destruct (String.eqb k' q) eqn:E; simpl.
    + apply String.eqb_eq in E. subst q. destruct (String.eqb k k'); reflexivity.
    + rewrite IH. destruct (String.eqb k q) eqn:F; [|reflexivity]. apply String.eqb_eq in F. subst q.
      destruct (String.eqb k k') eqn:G; [|reflexivity]. apply String.eqb_eq in G. subst. rewrite String.eqb_refl in E. discriminate.
Qed.
Lemma set_item_keys {B} k (v : B) d x : In x (map fst (set_item k v d)) <-> x = k \/ In x (map fst d).
Proof.
  induction d as [|[q w] d IH]; simpl; [intuition|]. destruct (String.eqb k q) eqn:E; simpl.
  - apply String.eqb_eq in E. subst. intuition.
  - rewrite IH. intuition.
Qed.
Lemma set_item_NoDup {B} k (v : B) d : NoDup (map fst d) -> NoDup (map fst (set_item k v d)).
Proof.
  induction d as [|[q w] d IH]; simpl; intros N; [constructor; [intros []|constructor]|].
  inversion N as [|? ? N1 N2]; subst. destruct (String.eqb k q) eqn:E; simpl.
  - apply String.eqb_eq in E. subst. constructor; assumption.
  - constructor; [|auto]. intros I. apply set_item_keys in I. destruct I as [->|I]; [|contradiction].
    rewrite String.eqb_refl in E. discriminate.
Qed.
Lemma get_list_push {B} k k' (v : B) d :
  get_list k (push k' v d) = if String.eqb k k' then get_list k d ++ [v] else get_list k d.
Proof.
  unfold push, get_list at 1 3 4. rewrite assoc_set_item. destruct (String.eqb k k') eqn:E; [|reflexivity].
  apply String.eqb_eq in E. subst. reflexivity.
Qed.
Lemma get_list_set {B} k k' (v : list B) d : get_list k (set_item k' v d) = if String.eqb k k' then v else get_list k d.
Proof. unfold get_list. rewrite assoc_set_item. destruct (String.eqb k k'); reflexivity. Qed.
Lemma assoc_map_snd {B C} (g : B -> C) k (d : list (string * B)) :
  assoc k (map (fun kv => (fst kv, g (snd kv))) d) = match assoc k d with Some v => Some (g v) | None => None end.
Proof. induction d as [|[q w] d IH]; simpl; [reflexivity|]. destruct (String.eqb k q); auto. Qed.
Lemma get_list_dedup k d : get_list k (dedup_fields d) = dedup_by x_id (get_list k d).
Proof. unfold get_list, dedup_fields. rewrite assoc_map_snd. destruct (assoc k d); reflexivity. Qed.
Lemma dedup_fields_keys d : map fst (dedup_fields d) = map fst d.
Proof. unfold dedup_fields. rewrite map_map. apply map_ext. reflexivity. Qed.
Lemma get_list_In {B} k (d : list (string * list B)) x : In x (get_list k d) -> In k (map fst d).
Proof.
  unfold get_list. destruct (assoc k d) as [l|] eqn:A; [|intros []]. intros _. apply assoc_In in A.
  apply (in_map fst) in A. exact A.
Qed.
Lemma get_list_assoc {B} k (d : list (string * list B)) l : NoDup (map fst d) -> In (k, l) d -> get_list k d = l.
Proof.
  unfold get_list. induction d as [|[q w] d IH]; intros N I; [destruct I|]. simpl in N. inversion N as [|? ? N1 N2]; subst.
  simpl. destruct I as [E|I]; [injection E as -> ->; rewrite String.eqb_refl; reflexivity|].
  destruct (String.eqb k q) eqn:E; [|auto]. apply String.eqb_eq in E. subst. exfalso. apply N1.
  apply (in_map fst) in I. exact I.
Qed.

Lemma foldM_inv {A B} (f : B -> A -> res B) (I : B -> Prop) l : forall b b',
  foldM f l b = Ok b' -> I b -> (forall x b1 b2, In x l -> I b1 -> f b1 x = Ok b2 -> I b2) -> I b'.
Proof.
  induction l as [|x l IH]; intros b b' H Ib S; simpl in H.
  - injection H as <-. exact Ib.
  - apply bind_ok in H. destruct H as (b1 & E1 & E2). apply (IH b1 b' E2).
    + apply (S x b b1); auto. left; reflexivity.
    + intros y c1 c2 Iy. apply S. right. exact Iy.
Qed.
(** Every step establishes a fact that later steps keep *)
Lemma foldM_each {A B} (f : B -> A -> res B) (Q : A -> B -> Prop) l : forall b b',
  foldM f l b = Ok b' ->
  (forall x b1 b2, In x l -> f b1 x = Ok b2 -> Q x b2) ->
  (forall x y b1 b2, In x l -> In y l -> f b1 y = Ok b2 -> Q x b1 -> Q x b2) ->
  forall x, In x l -> Q x b'.
Proof.
  induction l as [|y l IH]; intros b b' H S K x I; [destruct I|]. simpl in H.
  apply bind_ok in H. destruct H as (b1 & E1 & E2). destruct I as [->|I].
  - apply (foldM_inv f (Q x) l b1 b' E2).
    + apply (S x b b1); [left; reflexivity|exact E1].
    + intros z c1 c2 Iz Qc F. apply (K x z c1 c2); auto; [left; reflexivity|right; exact Iz].
  - apply (IH b1 b' E2); auto.
    + intros z c1 c2 Iz. apply S. right; exact Iz.
    + intros z w c1 c2 Iz Iw. apply K; right; assumption.
Qed.

(** ** Metrics *)
Definition home (P : xproj) (f : xfield) (k : string) : Prop :=
  exists d h, x_canon f = Some d /\ join_hash_key P f = Ok h /\ k = cte_name d h.
Lemma home_unique P f k k' : home P f k -> home P f k' -> k = k'.
Proof. intros (d & h & A & B & ->) (d' & h' & A' & B' & ->). congruence. Qed.

Definition has_id (k : string) (id : string) (qm : fdict) : Prop := exists g, In g (get_list k qm) /\ x_id g = id.

Lemma add_ref_spec P qm o qm' : add_ref P qm o = Ok qm' ->
  exists f k, o = Some f /\ home P f k /\ qm' = push k f qm.
Proof.
  unfold add_ref. destruct o as [f|]; [|discriminate]. destruct (x_canon f) as [d|] eqn:C; [|discriminate].
  intros H. apply bind_ok in H. destruct H as (h & E & H). injection H as <-.
  exists f, (cte_name d h). split; [reflexivity|]. split; [|reflexivity]. exists d, h. auto.
Qed.
Lemma add_secondary_spec P qm f qm' : add_secondary P qm f = Ok qm' ->
  exists k, home P f k /\ has_id k (x_id f) qm' /\ (qm' = qm \/ qm' = push k f qm).
Proof.
  unfold add_secondary. intros H. apply bind_ok in H. destruct H as (h & E & H).
  destruct (x_canon f) as [d|] eqn:C; [|discriminate]. exists (cte_name d h).
  split; [exists d, h; auto|]. destruct (existsb _ _) eqn:X; injection H as <-.
  - split; [|left; reflexivity]. apply existsb_exists in X. destruct X as (g & I & Q). apply String.eqb_eq in Q.
    exists g. auto.
  - split; [|right; reflexivity]. exists f. split; [|reflexivity]. rewrite get_list_push, String.eqb_refl.
    apply in_or_app. right. left. reflexivity.
Qed.
Lemma has_id_push k id k' f qm : has_id k id qm -> has_id k id (push k' f qm).
Proof.
  intros (g & I & E). exists g. split; [|exact E]. rewrite get_list_push.
  destruct (String.eqb k k'); [apply in_or_app; left|]; exact I.
Qed.

Lemma metric_groups_spec P merged secondary qm : metric_groups P merged secondary = Ok qm ->
  NoDup (map fst qm)
  /\ (forall k f, In f (get_list k qm) -> home P f k /\ (In (Some f) (flat_map (xp_refs P) merged) \/ In f secondary))
  /\ (forall f, In (Some f) (flat_map (xp_refs P) merged) \/ In f secondary -> exists k, home P f k /\ has_id k (x_id f) qm)
  /\ (forall k, NoDup (map x_id (get_list k qm)))
  /\ (forall o, In o (flat_map (xp_refs P) merged) -> o <> None).
Proof.
  intros H. unfold metric_groups in H. apply bind_ok in H. destruct H as (q1 & H1 & H).
  apply bind_ok in H. destruct H as (q2 & H2 & H). injection H as <-.
  set (refs := flat_map (xp_refs P) merged) in *.
  set (INV := fun q : fdict => NoDup (map fst q) /\
     forall k f, In f (get_list k q) -> home P f k /\ (In (Some f) refs \/ In f secondary)).
  assert (I1 : INV q1).
  { apply (foldM_inv (add_ref P) INV refs [] q1 H1).
    - split; [constructor|intros k f []].
    - intros o b1 b2 Io [N A] E. destruct (add_ref_spec _ _ _ _ E) as (f & k & -> & Hk & ->). split.
      + apply set_item_NoDup. exact N.
      + intros k' f' J. rewrite get_list_push in J. destruct (String.eqb k' k) eqn:Q; [|auto].
        apply String.eqb_eq in Q. subst k'. apply in_app_or in J. destruct J as [J|[<-|[]]]; auto. }
  assert (I2 : INV q2).
  { apply (foldM_inv (add_secondary P) INV secondary q1 q2 H2 I1).
    intros f b1 b2 If [N A] E. destruct (add_secondary_spec _ _ _ _ E) as (k & Hk & _ & [->| ->]); [split; assumption|].
    split; [apply set_item_NoDup; exact N|]. intros k' f' J. rewrite get_list_push in J.
    destruct (String.eqb k' k) eqn:Q; [|auto]. apply String.eqb_eq in Q. subst k'.
    apply in_app_or in J. destruct J as [J|[<-|[]]]; auto. }
  assert (R1 : forall o, In o refs -> exists f k, o = Some f /\ home P f k /\ has_id k (x_id f) q1).
  { apply (foldM_each (add_ref P) (fun o q => exists f k, o = Some f /\ home P f k /\ has_id k (x_id f) q) refs [] q1 H1).
    - intros o b1 b2 _ E. destruct (add_ref_spec _ _ _ _ E) as (f & k & -> & Hk & ->). exists f, k.
      split; [reflexivity|]. split; [exact Hk|]. exists f. split; [|reflexivity].
      rewrite get_list_push, String.eqb_refl. apply in_or_app. right; left; reflexivity.
    - intros o o' b1 b2 _ _ E (f & k & -> & Hk & Hid). exists f, k. split; [reflexivity|]. split; [exact Hk|].
      destruct (add_ref_spec _ _ _ _ E) as (f' & k' & -> & _ & ->). apply has_id_push. exact Hid. }
  assert (K2 : forall k id, has_id k id q1 -> has_id k id q2).
  { intros k id X. apply (foldM_inv (add_secondary P) (has_id k id) secondary q1 q2 H2 X).
    intros f b1 b2 _ Y E. destruct (add_secondary_spec _ _ _ _ E) as (k' & _ & _ & [->| ->]); [exact Y|].
    apply has_id_push. exact Y. }
  assert (R2 : forall f, In f secondary -> exists k, home P f k /\ has_id k (x_id f) q2).
  { apply (foldM_each (add_secondary P) (fun f q => exists k, home P f k /\ has_id k (x_id f) q) secondary q1 q2 H2).
    - intros f b1 b2 _ E. destruct (add_secondary_spec _ _ _ _ E) as (k & Hk & Hid & _). eauto.
    - intros f f' b1 b2 _ _ E (k & Hk & Hid). exists k. split; [exact Hk|].
      destruct (add_secondary_spec _ _ _ _ E) as (k' & _ & _ & [->| ->]); [exact Hid|]. apply has_id_push. exact Hid. }
  destruct I2 as [N2 A2]. split; [rewrite dedup_fields_keys; exact N2|]. split; [|split; [|split]].
  - intros k f I. rewrite get_list_dedup in I. apply dedup_by_aux_In in I. apply A2. tauto.
  - intros f Hf.
    assert (exists k, home P f k /\ has_id k (x_id f) q2) as (k & Hk & g & Ig & Eg).
    { destruct Hf as [Hf|Hf]; [|apply R2; exact Hf]. destruct (R1 _ Hf) as (f' & k & E & Hk & Hid).
      injection E as <-. exists k. split; [exact Hk|]. apply K2. exact Hid. }
    exists k. split; [exact Hk|]. unfold has_id. rewrite get_list_dedup.
    assert (X : In (x_id f) (map x_id (dedup_by x_id (get_list k q2)))).
    { apply dedup_by_aux_keys. split; [|intros []]. rewrite <- Eg. apply in_map. exact Ig. }
    apply in_map_iff in X. destruct X as (g' & E & I). exists g'. auto.
  - intros k. rewrite get_list_dedup. apply dedup_by_aux_NoDup.
  - intros o Io ->. destruct (R1 _ Io) as (f & k & E & _). discriminate E.
Qed.

(** ** Canonical dates *)
Lemma canon_step_mono am st f : incl (fst st) (fst (canon_step am st f)).
Proof.
  destruct st as [dates sets]. unfold canon_step. simpl fst. intros x I.
  destruct (x_canon f); [|exact I]. destruct (_ || _ || _); [apply in_or_app; left|]; exact I.
Qed.
Lemma canon_step_measure am st f d : x_measure f = true -> x_canon f = Some d -> In d (fst (canon_step am st f)).
Proof.
  intros M C. destruct st as [dates sets]. unfold canon_step. rewrite M, C. simpl opt_mem.
  destruct (mem d dates) eqn:D.
  - apply mem_In in D. match goal with |- context [if ?b then _ else _] => destruct b end; simpl; [apply in_or_app; left|]; exact D.
  - rewrite !orb_true_r. simpl. apply in_or_app. right; left; reflexivity.
Qed.
Lemma canon_fold_mono am l : forall st, incl (fst st) (fst (fold_left (canon_step am) l st)).
Proof.
  induction l as [|f l IH]; intros st x I; simpl; [exact I|]. apply IH. apply canon_step_mono. exact I.
Qed.
Lemma canon_fold_measure am l f d : In f l -> x_measure f = true -> x_canon f = Some d -> forall st,
  In d (fst (fold_left (canon_step am) l st)).
Proof.
  intros I M C. induction l as [|g l IH]; intros st; [destruct I|]. simpl. destruct I as [->|I].
  - apply canon_fold_mono. apply canon_step_measure; assumption.
  - apply IH. exact I.
Qed.

Definition date_key (P : xproj) (d k : string) : Prop :=
  exists g h, xp_by_name P d = Ok g /\ join_hash_key P g = Ok h /\ k = cte_name d h.

Lemma pair_entries_spec P dates es : pair_entries P dates = Ok es ->
  forall t e, In (t, e) es <->
    In t dates /\ In (mi_field e) dates /\ t <> mi_field e /\ mi_to e = None /\ date_key P (mi_field e) (mi_from e).
Proof.
  intros H t e. unfold pair_entries in H. rewrite (concatM_ok_In _ _ _ H). split.
  - intros (t' & zs & It & E & Ie). rewrite (concatM_ok_In _ _ _ E) in Ie.
    destruct Ie as (fr & z & Ifr & E2 & Iz). destruct (String.eqb t' fr) eqn:Q; [injection E2 as <-; destruct Iz|].
    apply bind_ok in E2. destruct E2 as (g & G1 & E2). apply bind_ok in E2. destruct E2 as (h & G2 & E2).
    injection E2 as <-. destruct Iz as [Iz|[]]. injection Iz as <- <-. simpl. apply String.eqb_neq in Q.
    split; [exact It|]. split; [exact Ifr|]. split; [exact Q|]. split; [reflexivity|]. exists g, h. auto.
  - intros (It & If & N & T & g & h & G1 & G2 & K).
    destruct (concatM_ok_all _ _ _ H t It) as [zs Z]. exists t, zs. split; [exact It|]. split; [exact Z|].
    apply (concatM_ok_In _ _ _ Z). exists (mi_field e), [(t, e)]. split; [exact If|]. split; [|left; reflexivity].
    apply String.eqb_neq in N. rewrite N, G1. cbn [bind]. rewrite G2. cbn [bind]. rewrite <- K.
    destruct e as [a b c]. simpl in *. subst c. reflexivity.
Qed.

Lemma fold_push_get {B} es : forall (d : list (string * list B)) k,
  get_list k (fold_left (fun d e => push (fst e) (snd e) d) es d) =
  get_list k d ++ map snd (filter (fun e => String.eqb k (fst e)) es).
Proof.
  induction es as [|[q e] es IH]; intros d k; simpl; [rewrite app_nil_r; reflexivity|].
  rewrite IH, get_list_push. destruct (String.eqb k q); simpl; [rewrite <- app_assoc|]; reflexivity.
Qed.

Lemma dedup_In l x : In x (dedup l) <-> In x l.
Proof.
  unfold dedup, dedup_by. pose proof (dedup_by_aux_keys (fun x : string => x) [] l x) as H.
  rewrite !map_id in H. rewrite H. simpl. tauto.
Qed.

Lemma canon_mapping_spec P qm merged secondary dims dm dates used :
  canon_mapping P qm merged secondary dims = Ok (dm, dates, used) ->
  (forall f d k, In f (get_list k qm) -> x_measure f = true -> x_canon f = Some d -> In d dates)
  /\ (forall k, In k used <-> exists t d, In t dates /\ In d dates /\ t <> d /\ date_key P d k)
  /\ (forall t e, In e (get_list t dm) <->
        In t dates /\ In (mi_field e) dates /\ t <> mi_field e /\ mi_to e = None /\ date_key P (mi_field e) (mi_from e)).
Proof.
  intros H. unfold canon_mapping in H. apply bind_ok in H. destruct H as (rd & _ & H).
  apply bind_ok in H. destruct H as (es & E & H). injection H as <- <- <-.
  set (am := negb _) in *.
  split; [|split].
  - intros f d k I M C. unfold sort_str. apply isort_In. apply dedup_In.
    apply (canon_fold_measure am _ f d); auto. apply in_or_app. left. apply in_flat_map.
    unfold get_list in I. destruct (assoc k qm) as [l|] eqn:A; [|destruct I]. exists (k, l).
    split; [apply assoc_In; exact A|exact I].
  - intros k. rewrite isort_In, dedup_In, in_map_iff. split.
    + intros ([t e] & <- & I). apply (pair_entries_spec _ _ _ E) in I.
      destruct I as (It & If & N & _ & DK). exists t, (mi_field e). auto.
    + intros (t & d & It & Id & N & DK). exists (t, MI d k None). split; [reflexivity|].
      apply (pair_entries_spec _ _ _ E). simpl. auto.
  - intros t e. rewrite fold_push_get. simpl. rewrite in_map_iff. rewrite <- (pair_entries_spec _ _ _ E t e). split.
    + intros ([t' e'] & Ee & I). apply filter_In in I. simpl in *. destruct I as [I Q]. apply String.eqb_eq in Q.
      subst. exact I.
    + intros I. exists (t, e). split; [reflexivity|]. apply filter_In. split; [exact I|]. simpl. apply String.eqb_refl.
Qed.

(** ** Dimensions and the metric groups *)
Definition wipes (P : xproj) (dates used : list string) (f : xfield) (k : string) : Prop :=
  mem (field_key f) dates = false /\ existsb (fun h => hash_contains h (x_graphs f)) used = false
  /\ exists d h, x_canon f = Some d /\ join_hash_key P f = Ok h /\ k = cte_name d h.

Lemma dim_iter_metrics P dates used st f st' : dim_iter P dates used st f = Ok st' ->
  ds_metrics st' = ds_metrics st
  \/ exists k, wipes P dates used f k /\ ds_metrics st' = set_item k [] (ds_metrics st).
Proof.
  unfold dim_iter. intros H. apply bind_ok in H. destruct H as (hash & E & H).
  destruct (mem (field_key f) dates) eqn:M.
  - apply bind_ok in H. destruct H as (qd & _ & H). injection H as <-. left. reflexivity.
  - apply bind_ok in H. destruct H as (qd & _ & H). destruct (existsb _ used) eqn:X.
    + injection H as <-. left. reflexivity.
    + unfold lone_dimension in H. destruct (x_canon f) as [d|] eqn:C; [|discriminate].
      apply bind_ok in H. destruct H as (qd' & _ & H). injection H as <-. right.
      exists (cte_name d hash). split; [|reflexivity]. split; [exact M|]. split; [exact X|]. exists d, hash. auto.
Qed.
Lemma dims_metrics P dates used dfs st st' : foldM (dim_iter P dates used) dfs st = Ok st' ->
  (NoDup (map fst (ds_metrics st)) -> NoDup (map fst (ds_metrics st')))
  /\ forall k, get_list k (ds_metrics st') = get_list k (ds_metrics st)
            \/ get_list k (ds_metrics st') = [] /\ exists f, In f dfs /\ wipes P dates used f k.
Proof.
  intros H. split.
  - intros N. apply (foldM_inv (dim_iter P dates used) (fun s => NoDup (map fst (ds_metrics s))) dfs st st' H N).
    intros f b1 b2 _ N1 E. destruct (dim_iter_metrics _ _ _ _ _ _ E) as [->|(k & _ & ->)]; [exact N1|].
    apply set_item_NoDup. exact N1.
  - intros k. apply (foldM_inv (dim_iter P dates used)
      (fun s => get_list k (ds_metrics s) = get_list k (ds_metrics st)
         \/ get_list k (ds_metrics s) = [] /\ exists f, In f dfs /\ wipes P dates used f k) dfs st st' H).
    + left. reflexivity.
    + intros f b1 b2 If I E. destruct (dim_iter_metrics _ _ _ _ _ _ E) as [->|(k' & W & ->)]; [exact I|].
      rewrite get_list_set. destruct (String.eqb k k') eqn:Q; [|exact I]. apply String.eqb_eq in Q. subst k'.
      right. split; [reflexivity|]. exists f. auto.
Qed.

(** ** Having *)
Lemma add_having_spec sids mids hs : forall ms,
  (forall f, In f (fst (add_having sids mids hs ms)) <->
     In f (fst ms) \/ In f hs /\ x_merged f = true /\ ~ In (x_id f) mids)
  /\ (forall f, In f (snd (add_having sids mids hs ms)) <->
     In f (snd ms) \/ In f hs /\ x_merged f = false /\ ~ In (x_id f) sids).
Proof.
  induction hs as [|g hs IH]; intros ms; simpl; [split; intros f; tauto|].
  match goal with |- context [add_having sids mids hs ?m] => destruct (IH m) as [A B] end.
  split; intros f; [rewrite A|rewrite B]; clear A B IH;
    destruct (mem (x_id g) sids) eqn:S, (mem (x_id g) mids) eqn:M, (x_merged g) eqn:G; simpl;
    try rewrite !in_app_iff; simpl;
    (first [apply mem_In in S|apply mem_false in S]); (first [apply mem_In in M|apply mem_false in M]);
    (split; [intros [H|H]|intros [H|[[H|H] H']]]); try tauto;
    try (subst f; rewrite G in *; intuition congruence);
    try (destruct H as [H|[H|[]]]; [tauto|subst f; rewrite G in *; tauto]).
Qed.

(** ** Positions of the dimensions *)
Lemma fold_push_one {B} h l : forall (d : list (string * list B)) k,
  get_list k (fold_left (fun d x => push h x d) l d) = if String.eqb k h then get_list k d ++ l else get_list k d.
Proof.
  induction l as [|x l IH]; intros d k; simpl; [destruct (String.eqb k h); [rewrite app_nil_r|]; reflexivity|].
  rewrite IH, get_list_push. destruct (String.eqb k h); [rewrite <- app_assoc|]; reflexivity.
Qed.
Lemma attach_all_get P qm dm f hs : NoDup hs -> forall qd qd', attach_all P qm dm f hs qd = Ok qd' ->
  forall h, (In h hs -> exists l, attach_one P qm dm f h = Ok l /\ get_list h qd' = get_list h qd ++ l)
            /\ (~ In h hs -> get_list h qd' = get_list h qd).
Proof.
  induction 1 as [|x hs N ND IH]; intros qd qd' H h; simpl in H.
  - injection H as <-. split; [intros []|reflexivity].
  - apply bind_ok in H. destruct H as (l & E & H). destruct (IH _ _ H h) as [A B]. split.
    + intros [->|I].
      * exists l. split; [exact E|]. rewrite B by exact N. rewrite fold_push_one, String.eqb_refl. reflexivity.
      * destruct (A I) as (l' & E' & G). exists l'. split; [exact E'|]. rewrite G, fold_push_one.
        destruct (String.eqb h x) eqn:Q; [|reflexivity]. apply String.eqb_eq in Q. subst. contradiction.
    + intros NI. rewrite B by (intros J; apply NI; right; exact J). rewrite fold_push_one. destruct (String.eqb h x) eqn:Q; [|reflexivity].
      apply String.eqb_eq in Q. subst. exfalso. apply NI. left; reflexivity.
Qed.
Lemma touch_get {B} k k' (d : list (string * list B)) : get_list k (touch k' d) = get_list k d.
Proof.
  unfold touch. destruct (assoc k' d) eqn:A; [reflexivity|]. rewrite get_list_set.
  destruct (String.eqb k k') eqn:Q; [|reflexivity]. apply String.eqb_eq in Q. subst.
  unfold get_list. rewrite A. reflexivity.
Qed.
Lemma lone_map P f hash st st' : lone_dimension P f hash st = Ok st' -> ds_map st' = ds_map st.
Proof.
  unfold lone_dimension. destruct (x_canon f); [|discriminate]. intros H. apply bind_ok in H.
  destruct H as (qd & _ & H). injection H as <-. reflexivity.
Qed.
Lemma dim_iter_map P dates used st f st' : dim_iter P dates used st f = Ok st' ->
  forall k, get_list k (ds_map st') = get_list k (ds_map st).
Proof.
  unfold dim_iter. intros H k. apply bind_ok in H. destruct H as (hash & E & H).
  destruct (mem (field_key f) dates); apply bind_ok in H; destruct H as (qd & _ & H).
  - injection H as <-. simpl. apply touch_get.
  - destruct (existsb _ used); [injection H as <-; reflexivity|]. rewrite (lone_map _ _ _ _ _ H). reflexivity.
Qed.

Definition applies (qm : fdict) (h : string) (e : minfo) : Prop :=
  (mi_from e = h /\ has_key h qm = true) \/ exists t, mi_to e = Some t /\ contains t h = true.
Lemma attach_mapped_spec P qm h c es : forall l,
  attach_mapped P qm h es = Ok l ->
  (forall e, In e es -> applies qm h e -> xp_field P (mi_field e) = Ok c) ->
  (forall x, In x l -> x = c) /\ ((exists e, In e es /\ applies qm h e) -> l <> []).
Proof.
  induction es as [|e es IH]; intros l H A; simpl in H.
  - injection H as <-. split; [intros x []|intros (e & [] & _)].
  - apply bind_ok in H. destruct H as (f & F & H).
    assert (A' : forall e', In e' es -> applies qm h e' -> xp_field P (mi_field e') = Ok c)
      by (intros e' I; apply A; right; exact I).
    destruct (has_key (mi_from e) qm && String.eqb (mi_from e) h) eqn:M.
    + apply bind_ok in H. destruct H as (l' & H1 & H2). injection H2 as <-.
      apply andb_prop in M. destruct M as [M1 M2]. apply String.eqb_eq in M2. rewrite M2 in M1.
      assert (f = c).
      { specialize (A e (or_introl eq_refl) (or_introl (conj M2 M1))). congruence. }
      subst f. destruct (IH l' H1 A') as [B _]. split; [intros x [<-|I]; auto|discriminate].
    + destruct (x_canon f); [|discriminate]. destruct (mi_to e) as [t|] eqn:T; [|discriminate].
      destruct (contains t h) eqn:Ct.
      * injection H as <-. assert (f = c).
        { specialize (A e (or_introl eq_refl) (or_intror (ex_intro _ t (conj T Ct)))). congruence. }
        subst f. split; [intros x [<-|[]]; reflexivity|discriminate].
      * destruct (IH l H A') as [B C]. split; [exact B|]. intros (e' & [<-|I] & Ap); [|apply C; eauto].
        exfalso. destruct Ap as [[Q K]|(t' & T' & Ct')]; [|congruence].
        rewrite Q, K, String.eqb_refl in M. discriminate M.
Qed.

Definition good_part (cp : string -> xfield -> xfield) (h : string) (f : xfield) (l : list xfield) : Prop :=
  l <> [] /\ forall x, In x l -> x = cp h f.

Section Positions.
  Variables (P : xproj) (dates used : list string) (qm : fdict) (dm : list (string * list minfo)).
  Variable cp : string -> xfield -> xfield.
  Definition counterpart (f : xfield) : Prop :=
    (In (field_key f) dates ->
       exists hash, join_hash_key P f = Ok hash
         /\ cp (cte_name (field_key f) hash) f = f
         /\ (forall e, In e (get_list (field_key f) dm) ->
               xp_field P (grouped_key (mi_field e) (x_group f)) = Ok (cp (mi_from e) f))
         /\ forall h, In h used -> h = cte_name (field_key f) hash
                                   \/ exists e, In e (get_list (field_key f) dm) /\ mi_from e = h)
    /\ (~ In (field_key f) dates ->
       (exists h, In h used /\ hash_contains h (x_graphs f) = true)
       /\ forall h, In h used ->
            (hash_contains h (x_graphs f) = true /\ cp h f = f)
            \/ (hash_contains h (x_graphs f) = false
                /\ (forall e, In e (get_list (field_key f) dm) -> applies qm h e -> xp_field P (mi_field e) = Ok (cp h f))
                /\ exists e, In e (get_list (field_key f) dm) /\ applies qm h e)).

  Lemma entries_fold f : forall es qd qd',
    foldM (fun qd e => g <- xp_field P (grouped_key (mi_field e) (x_group f)) ;; Ok (push (mi_from e) g qd)) es qd = Ok qd' ->
    (forall e, In e es -> xp_field P (grouped_key (mi_field e) (x_group f)) = Ok (cp (mi_from e) f)) ->
    forall h, exists l, get_list h qd' = get_list h qd ++ l /\ (forall x, In x l -> x = cp h f)
                        /\ ((exists e, In e es /\ mi_from e = h) -> l <> []).
  Proof.
    induction es as [|e es IH]; intros qd qd' H A h; cbn [foldM] in H.
    - injection H as <-. exists []. rewrite app_nil_r. split; [reflexivity|]. split; [intros x []|intros (e & [] & _)].
    - apply bind_ok in H. destruct H as (q1 & H1 & H2). apply bind_ok in H1. destruct H1 as (g & G & H1).
      injection H1 as <-. rewrite (A e (or_introl eq_refl)) in G. injection G as <-.
      destruct (IH _ _ H2 (fun e' I => A e' (or_intror I)) h) as (l & L1 & L2 & L3).
      rewrite get_list_push in L1. destruct (String.eqb h (mi_from e)) eqn:Q.
      + apply String.eqb_eq in Q. exists (cp (mi_from e) f :: l). split; [rewrite L1, <- app_assoc; reflexivity|].
        split; [intros x [<-|I]; [rewrite Q; reflexivity|auto]|discriminate].
      + apply String.eqb_neq in Q. exists l. split; [exact L1|]. split; [exact L2|].
        intros (e' & [<-|I] & E); [congruence|apply L3; eauto].
  Qed.

  Lemma dim_iter_positions st f st' : NoDup used -> counterpart f ->
    ds_metrics st = qm -> (forall k, get_list k (ds_map st) = get_list k dm) ->
    dim_iter P dates used st f = Ok st' ->
    ds_metrics st' = qm /\ (forall k, get_list k (ds_map st') = get_list k dm)
    /\ forall h, In h used -> exists l, get_list h (ds_dims st') = get_list h (ds_dims st) ++ l /\ good_part cp h f l.
  Proof.
    intros ND [C1 C2] M D H. pose proof (dim_iter_map _ _ _ _ _ _ H) as DM.
    assert (DM' : forall k, get_list k (ds_map st') = get_list k dm) by (intros k; rewrite DM; apply D).
    unfold dim_iter in H. apply bind_ok in H. destruct H as (hash & E & H).
    destruct (mem (field_key f) dates) eqn:Mm.
    - apply mem_In in Mm. destruct (C1 Mm) as (hash' & E' & X1 & X2 & X3). rewrite E in E'. injection E' as <-.
      apply bind_ok in H. destruct H as (qd & F & H). injection H as <-. cbn [ds_metrics ds_dims ds_map] in *.
      split; [exact M|]. split; [exact DM'|]. intros h Ih.
      rewrite touch_get, D in F.
      destruct (entries_fold f _ _ _ F X2 h) as (l & L1 & L2 & L3).
      rewrite get_list_push in L1. change (undot (field_key f) ++ "__" ++ hash)%string with (cte_name (field_key f) hash) in L1.
      destruct (String.eqb h (cte_name (field_key f) hash)) eqn:Q.
      + apply String.eqb_eq in Q. exists (f :: l). split; [rewrite L1, <- app_assoc; reflexivity|].
        split; [discriminate|]. intros x [<-|I]; [rewrite Q; congruence|auto].
      + apply String.eqb_neq in Q. exists l. split; [exact L1|]. split; [|exact L2].
        apply L3. destruct (X3 h Ih) as [X|X]; [congruence|exact X].
    - apply mem_false in Mm. destruct (C2 Mm) as [(h1 & I1 & K1) C3].
      apply bind_ok in H. destruct H as (qd & F & H).
      assert (X : existsb (fun h => hash_contains h (x_graphs f)) used = true)
        by (apply existsb_exists; exists h1; auto).
      rewrite X in H. injection H as <-. simpl in *. split; [exact M|]. split; [exact DM'|].
      intros h Ih. destruct (attach_all_get _ _ _ _ _ ND _ _ F h) as [A _].
      destruct (A Ih) as (l & L1 & L2). exists l. split; [exact L2|]. unfold attach_one in L1.
      destruct (C3 h Ih) as [[K Q]|(K & Q1 & Q2)]; rewrite K in L1.
      + injection L1 as <-. split; [discriminate|]. intros x [<-|[]]. congruence.
      + destruct (assoc (field_key f) (ds_map st)) as [es|] eqn:As; [|discriminate].
        assert (Es : get_list (field_key f) dm = es) by (rewrite <- D; unfold get_list; rewrite As; reflexivity).
        rewrite Es in *. rewrite M in L1.
        destruct (attach_mapped_spec P qm h (cp h f) es l L1 Q1) as [B C]. split; [apply C; exact Q2|exact B].
  Qed.

  Lemma dims_positions dfs : NoDup used -> (forall f, In f dfs -> counterpart f) -> forall st st',
    ds_metrics st = qm -> (forall k, get_list k (ds_map st) = get_list k dm) ->
    foldM (dim_iter P dates used) dfs st = Ok st' ->
    ds_metrics st' = qm
    /\ forall h, In h used -> exists ls, get_list h (ds_dims st') = get_list h (ds_dims st) ++ List.concat ls
                                         /\ Forall2 (good_part cp h) dfs ls.
  Proof.
    intros ND. induction dfs as [|f dfs IH]; intros C st st' M D H; simpl in H.
    - injection H as <-. split; [exact M|]. intros h _. exists []. simpl. rewrite app_nil_r. split; [reflexivity|constructor].
    - apply bind_ok in H. destruct H as (s1 & H1 & H2).
      destruct (dim_iter_positions st f s1 ND (C f (or_introl eq_refl)) M D H1) as (M1 & D1 & L1).
      destruct (IH (fun g I => C g (or_intror I)) s1 st' M1 D1 H2) as (M2 & L2). split; [exact M2|].
      intros h Ih. destruct (L1 h Ih) as (l & G1 & P1). destruct (L2 h Ih) as (ls & G2 & P2).
      exists (l :: ls). split; [rewrite G2, G1, <- app_assoc; reflexivity|constructor; assumption].
  Qed.
End Positions.

Lemma dedup_aux_skip {A} (key : A -> string) l : forall seen, (forall x, In x l -> In (key x) seen) ->
  forall m, dedup_by_aux key seen (l ++ m) = dedup_by_aux key seen m.
Proof.
  induction l as [|x l IH]; intros seen H m; simpl; [reflexivity|].
  rewrite (proj2 (mem_In _ _) (H x (or_introl eq_refl))). apply IH. intros y I. apply H. right; exact I.
Qed.
Lemma dedup_parts cp h dfs ls : Forall2 (good_part cp h) dfs ls ->
  NoDup (map (fun f => x_id (cp h f)) dfs) -> forall seen, (forall f, In f dfs -> ~ In (x_id (cp h f)) seen) ->
  dedup_by_aux x_id seen (List.concat ls) = map (cp h) dfs.
Proof.
  induction 1 as [|f l dfs ls [G1 G2] F IH]; intros ND seen S; simpl; [reflexivity|].
  simpl in ND. inversion ND as [|? ? N1 N2]; subst. destruct l as [|x l]; [congruence|].
  assert (x = cp h f) by (apply G2; left; reflexivity). subst x. simpl.
  rewrite (proj2 (mem_false _ _) (S f (or_introl eq_refl))). f_equal.
  rewrite dedup_aux_skip.
  - apply IH; [exact N2|]. intros g I [E|I2].
    + apply N1. rewrite E. apply in_map_iff. exists g. auto.
    + apply (S g (or_intror I) I2).
  - intros x I. rewrite (G2 x (or_intror I)). left. reflexivity.
Qed.

(** ** Where *)
(** Same condition, possibly on other fields *)
Inductive retargets : wcond -> wcond -> Prop :=
| RT_leaf n n' rest : retargets (WLeaf n rest) (WLeaf n' rest)
| RT_group rest ws ws' : Forall2 retargets ws ws' -> retargets (WGroup rest ws) (WGroup rest ws').
Fixpoint wcond_ind' (Q : wcond -> Prop) (HL : forall n r, Q (WLeaf n r))
  (HG : forall r ws, Forall Q ws -> Q (WGroup r ws)) (w : wcond) : Q w :=
  match w with
  | WLeaf n r => HL n r
  | WGroup r ws => HG r ws ((fix go l : Forall Q l :=
      match l with [] => Forall_nil Q | x :: l' => Forall_cons x (wcond_ind' Q HL HG x) (go l') end) ws)
  end.
Lemma resolve_retargets P qm dm h w : forall w', resolve_cond P qm dm h w = Ok w' -> retargets w w'.
Proof.
  induction w as [n r|r ws IH] using wcond_ind'; intros w' H; cbn [resolve_cond] in H.
  - apply bind_ok in H. destruct H as (n' & _ & H). injection H as <-. constructor.
  - apply bind_ok in H. destruct H as (ws' & E & H). injection H as <-. constructor.
    revert ws' E. induction IH as [|x ws Hx HF IH]; intros ws' E.
    + injection E as <-. constructor.
    + apply bind_ok in E. destruct E as (x' & E1 & E). apply bind_ok in E. destruct E as (r' & E2 & E).
      injection E as <-. constructor; [apply Hx; exact E1|apply IH; exact E2].
Qed.

Section Clean.
  Variable repr : list wcond -> string.
  Notation sh := (same_hash repr).
  Lemma list_eqb_eq a : forall b, list_eqb a b = true <-> a = b.
  Proof.
    induction a as [|[x1 x2] a IH]; intros [|[y1 y2] b]; simpl; try (split; intros; congruence).
    unfold pair_eqb. simpl. rewrite !andb_true_iff, !String.eqb_eq, IH. split.
    - intros [[-> ->] ->]. reflexivity.
    - intros E. injection E as -> -> ->. auto.
  Qed.
  Lemma sh_eq v w : sh v w = true <-> cond_strings repr v = cond_strings repr w.
  Proof. apply list_eqb_eq. Qed.
  Lemma last_filter_sh w all : In w all -> sh w (List.last (filter (sh w) all) w) = true /\ In (List.last (filter (sh w) all) w) all.
  Proof.
    intros I. assert (N : filter (sh w) all <> []).
    { intros E. apply (proj1 (filter_nil _ _)) with (x := w) in E; [|exact I].
      rewrite (proj2 (sh_eq w w) eq_refl) in E. discriminate E. }
    destruct (exists_last N) as (l & x & E). rewrite E, last_last.
    assert (J : In x (filter (sh w) all)) by (rewrite E; apply in_or_app; right; left; reflexivity).
    apply filter_In in J. tauto.
  Qed.
  Lemma dedup_conds_reach all l : (forall x, In x l -> In x all) -> forall seen w, In w l ->
    existsb (sh w) seen = true \/ exists v, In v (dedup_conds repr seen all l) /\ sh w v = true.
  Proof.
    induction l as [|x l IH]; intros S seen w I; [destruct I|]. simpl.
    destruct (existsb (sh x) seen) eqn:X.
    - destruct I as [->|I]; [left; exact X|]. apply IH; [intros y Iy; apply S; right; exact Iy|exact I].
    - destruct I as [->|I].
      + right. exists (List.last (filter (sh w) all) w). split; [left; reflexivity|].
        apply last_filter_sh. apply S. left; reflexivity.
      + destruct (IH (fun y Iy => S y (or_intror Iy)) (x :: seen) w I) as [E|(v & V1 & V2)].
        * simpl in E. apply orb_prop in E. destruct E as [E|E]; [|left; exact E].
          right. exists (List.last (filter (sh x) all) x). split; [left; reflexivity|].
          destruct (last_filter_sh x all (S x (or_introl eq_refl))) as [L _].
          apply sh_eq in L, E. apply sh_eq. congruence.
        * right. exists v. split; [right; exact V1|exact V2].
  Qed.
  Lemma dedup_conds_from all l : (forall x, In x l -> In x all) -> forall seen v,
    In v (dedup_conds repr seen all l) -> In v all.
  Proof.
    induction l as [|x l IH]; intros S seen v I; simpl in I; [destruct I|].
    assert (S' : forall y, In y l -> In y all) by (intros y Iy; apply S; right; exact Iy).
    destruct (existsb (sh x) seen); [eapply IH; eauto|]. destruct I as [<-|I]; [|eapply IH; eauto].
    apply last_filter_sh. apply S. left; reflexivity.
  Qed.
End Clean.

(** ** The sub queries a where condition is joinable in *)
Fixpoint no_dbl (b : bool) (s : string) : bool :=
  match s with
  | EmptyString => true
  | String c r => if Ascii.eqb c "_" then negb b && no_dbl true r else no_dbl false r
  end.
Lemma no_dbl_weaken s : no_dbl true s = true -> no_dbl false s = true.
Proof. destruct s as [|c s]; simpl; [auto|]. destruct (Ascii.eqb c "_"); [discriminate|auto]. Qed.
Lemma split_no_dbl s : forall b cur, no_dbl b s = true -> split_from "__" cur s = [(cur ++ s)%string].
Proof.
  induction s as [|c s IH]; intros b cur N; rewrite split_from_unfold by discriminate.
  - simpl. rewrite append_nil_r. reflexivity.
  - destruct (strip_prefix "__" (String c s)) as [r|] eqn:E.
    + exfalso. apply strip_prefix_some in E. simpl in E. injection E as -> ->. simpl in N. destruct b; discriminate N.
    + simpl in N. destruct (Ascii.eqb c "_"); [apply andb_prop in N; destruct N as [_ N]|];
        rewrite (IH _ _ N), append_assoc; reflexivity.
Qed.
Lemma no_dbl_digits s t : all_digits s = true -> s <> "" -> forall b, no_dbl b (s ++ t)%string = no_dbl false t.
Proof.
  induction s as [|c s IH]; intros D N b; [congruence|]. simpl in D. apply andb_prop in D. destruct D as [D1 D2].
  simpl. destruct (Ascii.eqb c "_") eqn:E; [apply Ascii.eqb_eq in E; subst; discriminate|].
  destruct s as [|c' s]; [reflexivity|]. apply IH; [exact D2|discriminate].
Qed.
Lemma no_dbl_join ns : forall b, no_dbl b (join_with "_" (map sub_name ns)) = true.
Proof.
  induction ns as [|n ns IH]; intros b; [reflexivity|]. destruct ns as [|m ns].
  - unfold sub_name. simpl join_with. simpl map. cbn [no_dbl append Ascii.eqb].
    change (no_dbl b ("subquery_" ++ nat_str n)%string) with (no_dbl true (nat_str n)).
    rewrite <- (append_nil_r (nat_str n)). apply no_dbl_digits; [apply nat_str_digits|apply nat_str_nonempty].
  - change (join_with "_" (map sub_name (n :: m :: ns)))
      with (sub_name n ++ "_" ++ join_with "_" (map sub_name (m :: ns)))%string.
    unfold sub_name at 1. rewrite append_assoc.
    change (no_dbl b ("subquery_" ++ nat_str n ++ "_" ++ join_with "_" (map sub_name (m :: ns)))%string)
      with (no_dbl true (nat_str n ++ "_" ++ join_with "_" (map sub_name (m :: ns)))%string).
    rewrite no_dbl_digits; [|apply nat_str_digits|apply nat_str_nonempty].
    change (no_dbl true (join_with "_" (map sub_name (m :: ns))) = true). apply IH.
Qed.

Lemma last_cons_nonempty {A} (x : A) l d : l <> [] -> List.last (x :: l) d = List.last l d.
Proof. destruct l; [congruence|reflexivity]. Qed.
Lemma split_from_nonempty sep cur s : split_from sep cur s <> [].
Proof.
  unfold split_from. generalize (S (String.length s)) as f. intros f. revert cur s.
  induction f as [|f IH]; intros cur s; cbn [split_fuel]; [discriminate|].
  destruct (strip_prefix sep s); [discriminate|]. destruct s; [discriminate|]. apply IH.
Qed.
Lemma last_split_dbl s : (forall b, no_dbl b s = true) -> forall n p cur, String.length p <= n ->
  exists pre, (pre = "" \/ pre = "_") /\ List.last (split_from "__" cur (p ++ "__" ++ s)%string) "" = (pre ++ s)%string.
Proof.
  intros N. assert (ND : "__" <> "") by discriminate.
  induction n as [|n IH]; intros p cur L.
  - destruct p; [|simpl in L; lia]. exists "". split; [left; reflexivity|].
    change ("" ++ "__" ++ s)%string with ("__" ++ s)%string.
    rewrite (split_from_unfold _ _ _ ND), strip_prefix_app, last_cons_nonempty by apply split_from_nonempty.
    rewrite (split_no_dbl s false "" (N false)). reflexivity.
  - destruct p as [|c p].
    { apply (IH "" cur). simpl; lia. }
    rewrite (split_from_unfold _ _ _ ND).
    destruct (strip_prefix "__" (String c p ++ "__" ++ s)%string) as [r|] eqn:E.
    + apply strip_prefix_some in E. rewrite last_cons_nonempty by apply split_from_nonempty.
      destruct p as [|c2 p].
      * simpl in E. injection E as -> E. exists "_". split; [right; reflexivity|].
        rewrite <- E. change (String "_" s) with ("_" ++ s)%string.
        rewrite (split_no_dbl ("_" ++ s)%string false ""); [reflexivity|]. apply (N true).
      * simpl in E. injection E as -> -> E. rewrite <- E.
        apply (IH p ""). simpl in L; lia.
    + change (String c p ++ "__" ++ s)%string with (String c (p ++ "__" ++ s)). apply IH. simpl in L; lia.
Qed.

Definition js (s : string) : list string :=
  map (fun g => strip_us ("subquery" ++ g)%string) (filter (fun g => negb (String.eqb g "")) (split_str "subquery" s)).
Lemma js_app a b : js (a ++ sq ++ b)%string = js a ++ js b.
Proof. unfold js. change "subquery" with sq at 2 4 6. rewrite split_sq, filter_app, map_app. reflexivity. Qed.
Lemma rstrip_app a b : rstrip_us b <> "" -> rstrip_us (a ++ b)%string = (a ++ rstrip_us b)%string.
Proof.
  induction a as [|c a IH]; intros N; [reflexivity|]. simpl. rewrite (IH N).
  destruct (a ++ rstrip_us b)%string eqn:E; [|reflexivity].
  exfalso. destruct a; [apply N; exact E|discriminate E].
Qed.
Lemma js_num n t : du t = true -> rstrip_us t = "" -> js ("_" ++ nat_str n ++ t)%string = [sub_name n].
Proof.
  intros D T. unfold js. change (split_str "subquery" ("_" ++ nat_str n ++ t)%string)
    with (split_from sq "" ("_" ++ nat_str n ++ t)%string).
  rewrite split_du.
  - simpl filter. simpl map. f_equal.
    change (strip_us ("subquery_" ++ (nat_str n ++ t)) = sub_name n)%string.
    unfold strip_us.
    assert (R : rstrip_us (nat_str n ++ t)%string = nat_str n)
      by (rewrite (rstrip_digits _ _ (nat_str_digits n) (nat_str_nonempty n)), T, append_nil_r; reflexivity).
    rewrite rstrip_app by (rewrite R; apply nat_str_nonempty). rewrite R. reflexivity.
  - rewrite !du_app, D, (digits_du _ (nat_str_digits n)). reflexivity.
Qed.
Lemma js_join ns : ns <> [] -> forall p, js (p ++ join_with "_" (map sub_name ns))%string = js p ++ map sub_name ns.
Proof.
  induction ns as [|n ns IH]; intros N p; [congruence|]. destruct ns as [|n' ns].
  - simpl join_with. unfold sub_name at 1. change "subquery_" with (sq ++ "_")%string.
    rewrite append_assoc, js_app. f_equal.
    rewrite <- (append_nil_r (nat_str n)). rewrite js_num by reflexivity. reflexivity.
  - change (join_with "_" (map sub_name (n :: n' :: ns)))
      with (sub_name n ++ "_" ++ join_with "_" (map sub_name (n' :: ns)))%string.
    rewrite <- !append_assoc. rewrite (IH ltac:(discriminate)).
    unfold sub_name at 1. change "subquery_" with (sq ++ "_")%string.
    rewrite !append_assoc. rewrite js_app. rewrite js_num by reflexivity.
    rewrite <- app_assoc. reflexivity.
Qed.
Lemma joinable_own d ns n : In n ns -> mem (sub_name n) (joinable_subqueries (cte_name d (join_with "_" (map sub_name ns)))) = true.
Proof.
  intros I. apply mem_In. unfold cte_name.
  destruct (last_split_dbl (join_with "_" (map sub_name ns)) (no_dbl_join ns) _ (undot d) "" (le_n _)) as (pre & _ & E).
  unfold joinable_subqueries. change (split_str "__" ?x) with (split_from "__" "" x).
  rewrite E. fold (js (pre ++ join_with "_" (map sub_name ns))).
  rewrite js_join by (destruct ns; [destruct I|discriminate]). apply in_or_app. right. apply in_map. exact I.
Qed.

(** ** Taking the derivation apart *)
Section Inv.
  Variable repr : list wcond -> string.
  Lemma derive_inv P ms hv dn ws D : derive repr P ms hv dn ws = Ok D ->
    exists mfs hfs dfs merged secondary qm dm0 st ds,
      mapM (xp_field P) ms = Ok mfs /\ mapM (xp_field P) hv = Ok hfs /\ mapM (xp_field P) dn = Ok dfs
      /\ (merged, secondary) =
         add_having (map x_id (filter (fun f => negb (x_merged f)) mfs)) (map x_id (filter x_merged mfs)) hfs
                    (filter x_merged mfs, filter (fun f => negb (x_merged f)) mfs)
      /\ metric_groups P merged secondary = Ok qm
      /\ canon_mapping P qm merged secondary dfs = Ok (dm0, dv_dates D, dv_used D)
      /\ st = model_mappings P (dv_used D)
           (MST (map (fun kv => (fst kv, map (fun e => (mi_field e, mi_from e)) (snd kv))) dm0) dm0)
      /\ foldM (dim_iter P (dv_dates D) (dv_used D)) dfs (DS qm [] (ms_dims st)) = Ok ds
      /\ dv_metrics D = ds_metrics ds /\ dv_dims D = dedup_fields (ds_dims ds) /\ dv_map D = ds_map ds
      /\ dv_merged D = merged /\ dv_lookup D = ms_lookup st
      /\ mapM (fun h => x <- mapM (resolve_cond P (dv_metrics D) (dv_map D) h) ws ;; Ok (h, clean_where repr x))
           (dedup (map fst (dv_metrics D) ++ map fst (dv_dims D))) = Ok (dv_where D).
  Proof.
    unfold derive. intros H. apply bind_ok in H. destruct H as (mfs & Em & H). unfold split_metrics in H.
    apply bind_ok in H. destruct H as (hfs & Eh & H).
    destruct (add_having _ _ hfs _) as [merged secondary] eqn:Ea.
    apply bind_ok in H. destruct H as (dfs & Ed & H). apply bind_ok in H. destruct H as (qm & Eq & H).
    apply bind_ok in H. destruct H as ([[dm0 dates] used] & Ec & H).
    apply bind_ok in H. destruct H as (ds & Ef & H). apply bind_ok in H. destruct H as (qw & Ew & H).
    injection H as <-. cbn [dv_dates dv_used dv_metrics dv_dims dv_map dv_merged dv_lookup dv_where].
    exists mfs, hfs, dfs, merged, secondary, qm, dm0. eexists. exists ds.
    repeat (split; [first [eassumption|reflexivity|symmetry; eassumption]|]).
    exact Ew.
  Qed.
End Inv.
