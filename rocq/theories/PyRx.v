(** The fragment of Python's re module used by the filter parser: a backtracking matcher returning
    all matches in the order in which re tries them (alternatives left to right, greedy repetition). *)
From Verif Require Import PyBase PyStr.
Local Open Scope string_scope.
Local Open Scope list_scope.
Local Open Scope nat_scope.

Inductive rx :=
| RLit (s : string)
| RCls (p : ascii -> bool)        (* one character of a class *)
| RPlus (p : ascii -> bool)       (* class+ (greedy) *)
| REps
| RSeq (a b : rx)
| RAlt (a b : rx)
| RGrp (n : nat) (a : rx).

(** captures, matched text, rest *)
Notation rmatch := (list (nat * string) * string * string)%type.

Fixpoint plus_splits (p : ascii -> bool) (s : string) : list (string * string) :=
  match s with
  | EmptyString => []
  | String c r => if p c then map (fun x => (String c (fst x), snd x)) (plus_splits p r) ++ [(String c "", r)] else []
  end.

Fixpoint rm (x : rx) (s : string) : list rmatch :=
  match x with
  | RLit l => match strip_prefix l s with Some r => [([], l, r)] | None => [] end
  | RCls p => match s with String c r => if p c then [([], String c "", r)] else [] | EmptyString => [] end
  | RPlus p => map (fun y => ([], fst y, snd y)) (plus_splits p s)
  | REps => [([], "", s)]
  | RSeq a b => flat_map (fun m1 => let '(c1, t1, r1) := m1 in
                   map (fun m2 => let '(c2, t2, r2) := m2 in (c1 ++ c2, (t1 ++ t2)%string, r2)) (rm b r1)) (rm a s)
  | RAlt a b => rm a s ++ rm b s
  | RGrp n a => map (fun m => let '(c, t, r) := m in (c ++ [(n, t)], t, r)) (rm a s)
  end.

(** re.search: the first match at the leftmost position, as its captures *)
Fixpoint rsearch (x : rx) (s : string) : option (list (nat * string)) :=
  match rm x s with
  | (c, _, _) :: _ => Some c
  | [] => match s with EmptyString => None | String _ r => rsearch x r end
  end.
(** result.group(n) *)
Fixpoint group (n : nat) (c : list (nat * string)) : string :=
  match c with [] => "" | (k, t) :: r => if Nat.eqb k n then t else group n r end.

Definition is_digit (c : ascii) : bool := let n := nat_of_ascii c in Nat.leb 48 n && Nat.leb n 57.

Lemma plus_splits_app p s t r : In (t, r) (plus_splits p s) -> s = (t ++ r)%string.
Proof.
  revert t r. induction s as [|c s IH]; simpl; [tauto|]. intros t r H. destruct (p c); [|destruct H].
  apply in_app_iff in H. destruct H as [H|[H|[]]].
  - apply in_map_iff in H. destruct H as [[t' r'] [E H]]. inversion E; subst. simpl. f_equal. auto.
  - inversion H; subst. reflexivity.
Qed.
(** Soundness: the matched text is a prefix of the input. *)
Lemma rm_app x : forall s c t r, In (c, t, r) (rm x s) -> s = (t ++ r)%string.
Proof.
  induction x; intros s0 c t r H; simpl in H.
  - destruct (strip_prefix s s0) eqn:E; [|destruct H]. destruct H as [H|[]]. inversion H; subst. apply strip_prefix_some; auto.
  - destruct s0; [destruct H|]. destruct (p a); [|destruct H]. destruct H as [H|[]]. inversion H; subst. reflexivity.
  - apply in_map_iff in H. destruct H as [[t' r'] [E H]]. inversion E; subst. apply plus_splits_app in H. auto.
  - destruct H as [H|[]]. inversion H; subst. reflexivity.
  - apply in_flat_map in H. destruct H as [[[c1 t1] r1] [H1 H]]. apply in_map_iff in H. destruct H as [[[c2 t2] r2] [E H2]].
    inversion E; subst. apply IHx1 in H1. apply IHx2 in H2. subst. symmetry. apply append_assoc.
  - apply in_app_iff in H. destruct H; eauto.
  - apply in_map_iff in H. destruct H as [[[c1 t1] r1] [E H]]. inversion E; subst. eauto.
Qed.

(** No match anywhere when some required literal does not occur *)
Fixpoint needs (x : rx) : list (list string) :=   (* conjunction of disjunctions of literals *)
  match x with
  | RLit l => [[l]]
  | RCls _ | RPlus _ | REps => []
  | RSeq a b => needs a ++ needs b
  | RAlt a b => match needs a, needs b with
                | d1 :: _, d2 :: _ => [d1 ++ d2]
                | _, _ => []
                end
  | RGrp _ a => needs a
  end.
Lemma contains_mid p a b c : contains p b = true -> contains p (a ++ b ++ c) = true.
Proof.
  rewrite !contains_spec. intros [x [y E]]. subst. exists (a ++ x)%string, (y ++ c)%string. rewrite !append_assoc. reflexivity.
Qed.
Lemma contains_left p a b : contains p a = true -> contains p (a ++ b) = true.
Proof. intros H. apply (contains_mid p "" a b H). Qed.
Lemma contains_right p a b : contains p b = true -> contains p (a ++ b) = true.
Proof. intros H. rewrite <- (append_nil_r b). apply contains_mid; auto. Qed.
Lemma rm_needs x : forall s c t r, In (c, t, r) (rm x s) -> forall d, In d (needs x) -> exists l, In l d /\ contains l t = true.
Proof.
  induction x; intros s0 c t r H d D; simpl in H, D.
  - destruct D as [<-|[]]. exists s. split; [left; auto|]. destruct (strip_prefix s s0); [|destruct H]. destruct H as [H|[]]. inversion H; subst.
    apply contains_spec. exists "", "". simpl. rewrite append_nil_r. reflexivity.
  - destruct D.
  - destruct D.
  - destruct D.
  - apply in_flat_map in H. destruct H as [[[c1 t1] r1] [H1 H]]. apply in_map_iff in H. destruct H as [[[c2 t2] r2] [E H2]].
    inversion E; subst. apply in_app_iff in D. destruct D as [D|D].
    + destruct (IHx1 _ _ _ _ H1 d D) as [l [L C]]. exists l. split; auto. apply contains_left; auto.
    + destruct (IHx2 _ _ _ _ H2 d D) as [l [L C]]. exists l. split; auto. apply contains_right; auto.
  - destruct (needs x1) as [|d1 n1] eqn:N1; [destruct D|]. destruct (needs x2) as [|d2 n2] eqn:N2; [destruct D|].
    destruct D as [<-|[]]. apply in_app_iff in H. destruct H as [H|H].
    + destruct (IHx1 _ _ _ _ H d1) as [l [L C]]; [left; auto|]. exists l. split; auto. apply in_app_iff; auto.
    + destruct (IHx2 _ _ _ _ H d2) as [l [L C]]; [left; auto|]. exists l. split; auto. apply in_app_iff; auto.
  - apply in_map_iff in H. destruct H as [[[c1 t1] r1] [E H]]. inversion E; subst. eauto.
Qed.
Lemma rsearch_none x s d : In d (needs x) -> (forall l, In l d -> contains l s = false) -> rsearch x s = None.
Proof.
  intros D. induction s as [|a s IH]; intros N; simpl.
  - destruct (rm x "") as [|[[c t] r] l] eqn:E; auto.
    assert (I : In (c, t, r) (rm x "")) by (rewrite E; left; auto).
    destruct (rm_needs _ _ _ _ _ I d D) as [w [W C]]. apply rm_app in I. specialize (N w W). rewrite I in N.
    rewrite (contains_left w t r C) in N. discriminate.
  - destruct (rm x (String a s)) as [|[[c t] r] l] eqn:E.
    + apply IH. intros w W. specialize (N w W). simpl in N. apply orb_false_iff in N. tauto.
    + assert (I : In (c, t, r) (rm x (String a s))) by (rewrite E; left; auto).
      destruct (rm_needs _ _ _ _ _ I d D) as [w [W C]]. apply rm_app in I. specialize (N w W). rewrite I in N.
      rewrite (contains_left w t r C) in N. discriminate.
Qed.

(** Greedy digits in front of a non-digit: only the whole run can be followed by something that does
    not start with a digit. *)
Fixpoint all_p (p : ascii -> bool) (s : string) : bool := match s with EmptyString => true | String c r => p c && all_p p r end.
Definition head_is (p : ascii -> bool) (s : string) : bool := match s with String c _ => p c | EmptyString => false end.
Lemma plus_splits_run p d r : all_p p d = true -> d <> "" -> head_is p r = false ->
  exists l, plus_splits p (d ++ r) = (d, r) :: l /\ forall t q, In (t, q) l -> head_is p q = true.
Proof.
  intros A N H. induction d as [|c d IH]; [congruence|]. simpl in A. apply andb_true_iff in A. destruct A as [A1 A2].
  simpl append. simpl plus_splits. rewrite A1. destruct d as [|c' d].
  - exists []. simpl append. destruct r as [|x r]; simpl in *; [split; [auto|intros t q []]|].
    rewrite H. simpl. split; [auto|intros t q []].
  - destruct IH as [l [E I]]; auto; [discriminate|]. rewrite E. simpl map.
    eexists. split; [reflexivity|]. intros t q J. apply in_app_iff in J. destruct J as [J|[J|[]]].
    + apply in_map_iff in J. destruct J as [[t' q'] [E' J]]. inversion E'; subst. simpl. eauto.
    + inversion J; subst. simpl. simpl in A2. apply andb_true_iff in A2. tauto.
Qed.
