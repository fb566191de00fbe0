(** Python string primitives used by the models.  Text is Coq [string]; characters outside ASCII
    are not distinguished further (simplification: [str.lower] only acts on A-Z). *)
From Verif Require Import PyBase.

Local Open Scope string_scope.
Local Open Scope nat_scope.

(** str.lower on one character. *)
Definition lower_ascii (c : ascii) : ascii :=
  let n := nat_of_ascii c in
  if (65 <=? n) && (n <=? 90) then ascii_of_nat (n + 32) else c.

(** str.lower *)
Fixpoint lower (s : string) : string :=
  match s with
  | EmptyString => EmptyString
  | String c r => String (lower_ascii c) (lower r)
  end.

Definition dot : ascii := ascii_of_nat 46.

(** [c in s] for a one-character [c]. *)
Fixpoint has_char (c : ascii) (s : string) : bool :=
  match s with
  | EmptyString => false
  | String a r => Ascii.eqb a c || has_char c r
  end.

(** s.count(c) for a one-character [c]. *)
Fixpoint count_char (c : ascii) (s : string) : nat :=
  match s with
  | EmptyString => 0
  | String a r => (if Ascii.eqb a c then 1 else 0) + count_char c r
  end.

(** s.split(c) for a one-character separator. *)
Fixpoint split_char (c : ascii) (s : string) : list string :=
  match s with
  | EmptyString => [EmptyString]
  | String a r =>
      if Ascii.eqb a c then EmptyString :: split_char c r
      else match split_char c r with
           | [] => [String a EmptyString]
           | h :: t => String a h :: t
           end
  end.

(** c.join(l) *)
Fixpoint join_with (sep : string) (l : list string) : string :=
  match l with
  | [] => ""
  | [x] => x
  | x :: r => x ++ sep ++ join_with sep r
  end.

(** MetricsLayerBase.field_name_parts, metrics_layer/core/model/base.py:70-79 *)
Definition field_name_parts (s : string) : option string * option string * string :=
  if Nat.eqb (count_char dot s) 2 then
    match split_char dot s with
    | [a; b; c] => (Some a, Some b, c)
    | _ => (None, None, s) (* unreachable: two dots give three parts *)
    end
  else if Nat.eqb (count_char dot s) 1 then
    match split_char dot s with
    | [b; c] => (None, Some b, c)
    | _ => (None, None, s) (* unreachable: one dot gives two parts *)
    end
  else (None, None, s).

(** s.startswith(p), and the remainder. *)
Fixpoint strip_prefix (p s : string) : option string :=
  match p, s with
  | EmptyString, _ => Some s
  | String a p', String b s' => if Ascii.eqb a b then strip_prefix p' s' else None
  | String _ _, EmptyString => None
  end.

Definition starts_with (p s : string) : bool :=
  match strip_prefix p s with Some _ => true | None => false end.

(** [p in s] *)
Fixpoint contains (p s : string) : bool :=
  starts_with p s ||
  match s with EmptyString => false | String _ r => contains p r end.

(** s.replace(old, new): non-overlapping, left to right.  [old] is non-empty at every call site;
    for an empty [old] this function returns [s] unchanged (Python would interleave). The fuel is
    the length of the text plus one, so it never runs out. *)
Fixpoint replace_fuel (fuel : nat) (old new s : string) : string :=
  match fuel with
  | O => s
  | S f =>
      match strip_prefix old s with
      | Some rest => new ++ replace_fuel f old new rest
      | None => match s with
                | EmptyString => EmptyString
                | String a r => String a (replace_fuel f old new r)
                end
      end
  end.
Definition replace (old new s : string) : string :=
  match old with EmptyString => s | _ => replace_fuel (S (String.length s)) old new s end.

Definition is_space (c : ascii) : bool :=
  let n := nat_of_ascii c in Nat.eqb n 32 || ((9 <=? n) && (n <=? 13)).

(** s.lstrip() / s.rstrip() / s.strip() on whitespace *)
Fixpoint lstrip (s : string) : string :=
  match s with
  | EmptyString => EmptyString
  | String c r => if is_space c then lstrip r else s
  end.
Fixpoint rstrip (s : string) : string :=
  match s with
  | EmptyString => EmptyString
  | String c r => match rstrip r with
                  | EmptyString => if is_space c then EmptyString else String c EmptyString
                  | t => String c t
                  end
  end.
Definition strip (s : string) : string := lstrip (rstrip s).

(** str(n) for a natural number. *)
Definition digit (n : nat) : ascii := ascii_of_nat (48 + n).
Fixpoint nat_str_fuel (fuel n : nat) (acc : string) : string :=
  match fuel with
  | O => acc
  | S f => let acc' := String (digit (n mod 10)) acc in
           if n <? 10 then acc' else nat_str_fuel f (n / 10) acc'
  end.
Definition nat_str (n : nat) : string := nat_str_fuel (S n) n "".

(* ---------------------------------------------------------------- lemmas *)

Lemma lower_ascii_idem c : lower_ascii (lower_ascii c) = lower_ascii c.
Proof. destruct c as [[] [] [] [] [] [] [] []]; vm_compute; reflexivity. Qed.

Lemma lower_idem s : lower (lower s) = lower s.
Proof. induction s as [|c s IH]; simpl; [reflexivity|]. rewrite lower_ascii_idem, IH; reflexivity. Qed.

Lemma lower_app a b : lower (a ++ b) = lower a ++ lower b.
Proof. induction a as [|c a IH]; simpl; [reflexivity|]. rewrite IH; reflexivity. Qed.

Lemma lower_ascii_dot c : Ascii.eqb (lower_ascii c) dot = Ascii.eqb c dot.
Proof. destruct c as [[] [] [] [] [] [] [] []]; vm_compute; reflexivity. Qed.

Lemma has_char_lower_dot s : has_char dot (lower s) = has_char dot s.
Proof. induction s as [|c s IH]; simpl; [reflexivity|]. rewrite lower_ascii_dot, IH; reflexivity. Qed.

Lemma has_char_app c a b : has_char c (a ++ b) = has_char c a || has_char c b.
Proof. induction a as [|x a IH]; simpl; [reflexivity|]. rewrite IH, orb_assoc; reflexivity. Qed.

Lemma count_char_app c a b : count_char c (a ++ b) = count_char c a + count_char c b.
Proof. induction a as [|x a IH]; simpl; [reflexivity|]. rewrite IH, Nat.add_assoc; reflexivity. Qed.

Lemma count_char_0 c s : count_char c s = 0 <-> has_char c s = false.
Proof.
  induction s as [|x s IH]; simpl; [tauto|].
  destruct (Ascii.eqb x c); simpl; [|exact IH].
  split; intro H; discriminate.
Qed.

Lemma split_char_nochar c s : has_char c s = false -> split_char c s = [s].
Proof.
  induction s as [|x s IH]; simpl; intro H; [reflexivity|].
  apply orb_false_elim in H. destruct H as [H1 H2]. rewrite H1, (IH H2). reflexivity.
Qed.

Lemma split_char_app c a b :
  has_char c a = false -> split_char c (a ++ String c b) = a :: split_char c b.
Proof.
  induction a as [|x a IH]; simpl; intro H.
  - rewrite Ascii.eqb_refl. reflexivity.
  - apply orb_false_elim in H. destruct H as [H1 H2]. rewrite H1, (IH H2). reflexivity.
Qed.

Lemma split_char_length c s : List.length (split_char c s) = S (count_char c s).
Proof.
  induction s as [|x s IH]; simpl; [reflexivity|].
  destruct (Ascii.eqb x c); simpl; [rewrite IH; reflexivity|].
  destruct (split_char c s); simpl in *; [discriminate|exact IH].
Qed.

Lemma split_char_pieces c s : forall p, In p (split_char c s) -> has_char c p = false.
Proof.
  induction s as [|x s IH]; simpl; intros p H.
  - destruct H as [<-|[]]. reflexivity.
  - destruct (Ascii.eqb x c) eqn:E.
    + destruct H as [<-|H]; [reflexivity|auto].
    + destruct (split_char c s) as [|h t]; simpl in *.
      * destruct H as [<-|[]]. simpl. rewrite E. reflexivity.
      * destruct H as [<-|H]; [simpl; rewrite E; apply IH; auto | apply IH; auto].
Qed.

Lemma split_char_join c s : join_with (String c "") (split_char c s) = s.
Proof.
  induction s as [|x s IH]; simpl; [reflexivity|].
  destruct (Ascii.eqb x c) eqn:E.
  - apply Ascii.eqb_eq in E; subst x.
    pose proof (split_char_length c s) as L.
    destruct (split_char c s) as [|h t] eqn:E2; [discriminate|].
    simpl. simpl in IH. rewrite IH. reflexivity.
  - destruct (split_char c s) as [|h t]; simpl in *; [subst; reflexivity|].
    destruct t; simpl in *; rewrite <- IH; reflexivity.
Qed.

Lemma append_nil_r s : s ++ "" = s.
Proof. induction s as [|c s IH]; simpl; [|rewrite IH]; reflexivity. Qed.

Lemma append_assoc a b c : (a ++ b) ++ c = a ++ (b ++ c).
Proof. induction a as [|x a IH]; simpl; [|rewrite IH]; reflexivity. Qed.

Lemma append_inj_l p a b : p ++ a = p ++ b -> a = b.
Proof. induction p as [|x p IH]; simpl; intro H; [exact H|]. injection H as H; auto. Qed.

Lemma append_length a b : String.length (a ++ b) = String.length a + String.length b.
Proof. induction a as [|x a IH]; simpl; [|rewrite IH]; reflexivity. Qed.

Lemma append_inj_r p a b : a ++ p = b ++ p -> a = b.
Proof.
  revert b; induction a as [|x a IH]; intros [|y b] H; simpl in *; try reflexivity.
  - exfalso. apply (f_equal String.length) in H. simpl in H. rewrite append_length in H. lia.
  - exfalso. apply (f_equal String.length) in H. simpl in H. rewrite append_length in H. lia.
  - injection H as -> H. f_equal. auto.
Qed.

(** A name is split at its first separator in only one way. *)
Lemma sep_inj c a1 b1 a2 b2 :
  has_char c a1 = false -> has_char c a2 = false ->
  a1 ++ String c b1 = a2 ++ String c b2 -> a1 = a2 /\ b1 = b2.
Proof.
  revert a2; induction a1 as [|x a1 IH]; intros [|y a2] H1 H2 H; simpl in *.
  - injection H as H. auto.
  - injection H as -> H. rewrite Ascii.eqb_refl in H2. discriminate.
  - injection H as -> H. rewrite Ascii.eqb_refl in H1. discriminate.
  - apply orb_false_elim in H1. apply orb_false_elim in H2.
    injection H as -> H. destruct (IH a2) as [-> ->]; tauto.
Qed.

Lemma strip_prefix_app p s : strip_prefix p (p ++ s) = Some s.
Proof. induction p as [|x p IH]; simpl; [reflexivity|]. rewrite Ascii.eqb_refl. exact IH. Qed.

Lemma strip_prefix_some p s r : strip_prefix p s = Some r <-> s = p ++ r.
Proof.
  split.
  - revert s; induction p as [|x p IH]; intros s H; simpl in *.
    + injection H as ->. reflexivity.
    + destruct s as [|y s]; [discriminate|].
      destruct (Ascii.eqb x y) eqn:E; [|discriminate].
      apply Ascii.eqb_eq in E; subst. rewrite (IH _ H). reflexivity.
  - intros ->. apply strip_prefix_app.
Qed.

Lemma contains_spec p s : contains p s = true <-> exists a b, s = a ++ p ++ b.
Proof.
  split.
  - induction s as [|x s IH]; simpl; intro H.
    + rewrite orb_false_r in H. unfold starts_with in H.
      destruct (strip_prefix p "") as [r|] eqn:E; [|discriminate].
      apply strip_prefix_some in E. exists "", r. simpl. exact E.
    + apply orb_true_iff in H. destruct H as [H|H].
      * unfold starts_with in H. destruct (strip_prefix p (String x s)) as [r|] eqn:E; [|discriminate].
        apply strip_prefix_some in E. exists "", r. exact E.
      * destruct (IH H) as (a & b & ->). exists (String x a), b. reflexivity.
  - intros (a & b & ->). induction a as [|x a IH]; simpl.
    + destruct (p ++ b) eqn:E; simpl; rewrite <- ?E; unfold starts_with; rewrite ?strip_prefix_app;
        [|reflexivity].
      destruct p; [reflexivity|discriminate].
    + rewrite IH. apply orb_true_r.
Qed.

Lemma field_name_parts_plain n : has_char dot n = false -> field_name_parts n = (None, None, n).
Proof.
  intro H. unfold field_name_parts. apply count_char_0 in H. rewrite H. reflexivity.
Qed.

Lemma field_name_parts_qualified v n :
  has_char dot v = false -> has_char dot n = false ->
  field_name_parts (v ++ String dot n) = (None, Some v, n).
Proof.
  intros Hv Hn. unfold field_name_parts. rewrite count_char_app. simpl count_char.
  pose proof (proj2 (count_char_0 _ _) Hv) as ->. pose proof (proj2 (count_char_0 _ _) Hn) as ->.
  simpl. rewrite (split_char_app _ _ _ Hv), (split_char_nochar _ _ Hn). reflexivity.
Qed.

Lemma field_name_parts_full e v n :
  has_char dot e = false -> has_char dot v = false -> has_char dot n = false ->
  field_name_parts (e ++ String dot (v ++ String dot n)) = (Some e, Some v, n).
Proof.
  intros He Hv Hn. unfold field_name_parts. rewrite count_char_app. simpl count_char.
  rewrite count_char_app. simpl count_char.
  pose proof (proj2 (count_char_0 _ _) He) as ->.
  pose proof (proj2 (count_char_0 _ _) Hv) as ->. pose proof (proj2 (count_char_0 _ _) Hn) as ->.
  simpl. rewrite (split_char_app _ _ _ He), (split_char_app _ _ _ Hv), (split_char_nochar _ _ Hn).
  reflexivity.
Qed.
