(** Laws of str.replace as modelled in PyStr.v. *)
From Coq Require Import Lia.
From Verif Require Import PyBase PyStr.
Local Open Scope string_scope.
Local Open Scope nat_scope.

Lemma strip_prefix_length p s r : strip_prefix p s = Some r -> String.length s = String.length p + String.length r.
Proof. intros E. apply strip_prefix_some in E. subst. apply append_length. Qed.

Lemma replace_fuel_enough old new : old <> "" -> forall f f' s,
  String.length s < f -> String.length s < f' -> replace_fuel f old new s = replace_fuel f' old new s.
Proof.
  intros N. induction f as [|f IH]; intros [|f'] s L L'; try lia. simpl.
  destruct (strip_prefix old s) as [r|] eqn:E.
  - apply strip_prefix_length in E. assert (0 < String.length old) by (destruct old; [congruence|simpl; lia]).
    f_equal. apply IH; lia.
  - destruct s as [|a s]; auto. simpl in L, L'. f_equal. apply IH; lia.
Qed.

Lemma replace_unfold old new s : old <> "" ->
  replace old new s =
  match strip_prefix old s with
  | Some r => new ++ replace old new r
  | None => match s with EmptyString => EmptyString | String a r => String a (replace old new r) end
  end.
Proof.
  intros N. assert (R : forall t, replace old new t = replace_fuel (S (String.length t)) old new t).
  { intros t. unfold replace. destruct old; [congruence|reflexivity]. }
  rewrite R at 1. cbn [replace_fuel]. destruct (strip_prefix old s) as [r|] eqn:E.
  - rewrite R. f_equal. apply replace_fuel_enough; auto; try lia. apply strip_prefix_length in E.
    assert (0 < String.length old) by (destruct old; [congruence|simpl; lia]). lia.
  - destruct s as [|a s]; auto. rewrite R. f_equal.
Qed.

Lemma replace_none old new s : contains old s = false -> replace old new s = s.
Proof.
  destruct old as [|c old]; [reflexivity|]. set (o := String c old) in *.
  assert (N : o <> "") by (unfold o; discriminate). clearbody o.
  induction s as [|a s IH]; intros C; rewrite replace_unfold by auto.
  - simpl in C. unfold starts_with in C. destruct (strip_prefix o ""); [discriminate|reflexivity].
  - simpl in C. apply orb_false_iff in C. destruct C as [C1 C2]. unfold starts_with in C1.
    destruct (strip_prefix o (String a s)); [discriminate|]. f_equal. auto.
Qed.

Lemma replace_head old new s : old <> "" -> replace old new (old ++ s) = new ++ replace old new s.
Proof. intros N. rewrite replace_unfold by auto. rewrite strip_prefix_app. reflexivity. Qed.

Lemma replace_shorter old s : old <> "" -> contains old s = true -> String.length (replace old "" s) < String.length s.
Proof.
  intros N.
  assert (LE : forall n s, String.length s <= n -> String.length (replace old "" s) <= String.length s).
  { induction n as [|n IH]; intros t L; rewrite replace_unfold by auto.
    - destruct t; [|simpl in L; lia]. destruct (strip_prefix old "") as [r|] eqn:E; auto.
      apply strip_prefix_length in E. destruct old; [congruence|simpl in E; lia].
    - destruct (strip_prefix old t) as [r|] eqn:E.
      + apply strip_prefix_length in E. assert (0 < String.length old) by (destruct old; [congruence|simpl; lia]).
        simpl. specialize (IH r). lia.
      + destruct t as [|a t]; auto. simpl in *. specialize (IH t). lia. }
  assert (P : 0 < String.length old) by (destruct old; [congruence|simpl; lia]).
  induction s as [|a s IH]; intros C; rewrite replace_unfold by auto.
  - simpl in C. rewrite orb_false_r in C. unfold starts_with in C. destruct (strip_prefix old "") eqn:E; [|discriminate].
    apply strip_prefix_length in E. simpl in E. lia.
  - destruct (strip_prefix old (String a s)) as [r|] eqn:E.
    + apply strip_prefix_length in E. specialize (LE (String.length r) r). simpl append. lia.
    + simpl in C. unfold starts_with in C. rewrite E in C. simpl in C. specialize (IH C). simpl. lia.
Qed.

(** Skipping a prefix in which no occurrence can start *)
Lemma replace_skip old new a s : old <> "" -> strip_prefix old (String a s) = None ->
  replace old new (String a s) = String a (replace old new s).
Proof. intros N E. rewrite replace_unfold by auto. rewrite E. reflexivity. Qed.

(** If [old] starts with a character absent from [p], the prefix [p] is untouched. *)
Lemma replace_skip_prefix c old new p s : has_char c p = false ->
  replace (String c old) new (p ++ s) = p ++ replace (String c old) new s.
Proof.
  induction p as [|a p IH]; intros H; [reflexivity|]. simpl in H. apply orb_false_iff in H. destruct H as [H1 H2].
  simpl append. rewrite replace_skip; [f_equal; auto|discriminate|].
  simpl. destruct (Ascii.eqb c a) eqn:E; auto. apply Ascii.eqb_eq in E. subst. rewrite Ascii.eqb_refl in H1. discriminate.
Qed.

Lemma contains_prefix p s : contains p (p ++ s) = true.
Proof. apply contains_spec. exists "", s. reflexivity. Qed.
Lemma contains_suffix p s : contains p (s ++ p) = true.
Proof. apply contains_spec. exists s, "". simpl. rewrite append_nil_r. reflexivity. Qed.
