(** Specification and property theorems: C34, funnels. *)
From Coq Require Import Lia.
From Verif Require Import PyBase PyStr Core_Model Duration_Model Duration_Props Funnel_Model.
Local Open Scope string_scope.
Local Open Scope list_scope.
Local Open Scope Z_scope.

Lemma dedup_In l x : In x (dedup l) <-> In x l.
Proof.
  unfold dedup, dedup_by. pose proof (dedup_by_aux_keys (fun s : string => s) [] l x) as H. rewrite !map_id in H.
  rewrite H. simpl. tauto.
Qed.
Lemma NoDup_dedup l : NoDup (dedup l).
Proof. unfold dedup, dedup_by. rewrite <- (map_id (dedup_by_aux _ _ _)). apply dedup_by_aux_NoDup. Qed.

(** ** Which events take a person through the first steps *)
Section Spec.
  Context {D : Type}.
  Variable base : list (event D).
  Variable diff : Z -> Z -> Z.
  Variable window : Z.
  Definition satisfies (s : fstep D) (e : event D) : Prop :=
    match s with
    | SConditions cs => forall c, In c cs -> c (ev_data e) = true
    | SText c cs => exists c', In c' (c :: cs) /\ c' (ev_data e) = true
    end.
  Definition same_person (a b : event D) : Prop := exists p, ev_person a = Some p /\ ev_person b = Some p.
  Definition before (a b : event D) : Prop := exists s e, ev_time a = Some s /\ ev_time b = Some e /\ s < e.
  Definition within (a b : event D) : Prop := exists s e, ev_time a = Some s /\ ev_time b = Some e /\ diff s e <= window.
  (** One event per step, each later than the one before, of one person, in the window that begins with the first *)
  Definition chain (ss : list (fstep D)) (es : list (event D)) : Prop :=
    List.length es = List.length ss /\ (forall e, In e es -> In e base)
    /\ (forall i s e, nth_error ss i = Some s -> nth_error es i = Some e -> satisfies s e)
    /\ (forall i a b, nth_error es i = Some a -> nth_error es (S i) = Some b -> same_person a b /\ before a b)
    /\ (forall i a b, nth_error es 0 = Some a -> nth_error es (S i) = Some b -> within a b).
  Definition goes (ss : list (fstep D)) (first last : event D) : Prop :=
    exists es, chain ss es /\ nth_error es 0 = Some first /\ nth_error es (List.length ss - 1) = Some last.
  (** Texts with a top-level OR after the first step are excluded *)
  Definition plain (s : fstep D) : Prop := match s with SText _ (_ :: _) => False | _ => True end.

  Lemma where_plain (s : fstep D) d w : plain s -> (where_holds s d w = true <-> w = true /\ match s with SConditions cs => forall c, In c cs -> c d = true | SText c _ => c d = true end).
  Proof.
    destruct s as [cs|c [|]]; cbn; intros P; try destruct P.
    - rewrite andb_true_iff, forallb_forall. tauto.
    - rewrite andb_true_iff. tauto.
  Qed.
  Lemma satisfies_plain s e : plain s -> (satisfies s e <-> match s with SConditions cs => forall c, In c cs -> c (ev_data e) = true | SText c _ => c (ev_data e) = true end).
  Proof.
    destruct s as [cs|c [|]]; cbn; intros P; try destruct P; [reflexivity|]. split; [intros (c' & [<-|[]] & H); exact H|intros H; exists c; auto].
  Qed.
  Lemma where_first (s : fstep D) d : where_holds s d true = true <-> match s with SConditions cs => forall c, In c cs -> c d = true | SText c cs => exists c', In c' (c :: cs) /\ c' d = true end.
  Proof.
    destruct s as [cs|c cs]; cbn; [rewrite andb_true_r, forallb_forall; reflexivity|]. revert c.
    induction cs as [|c' r IH]; intros c; cbn.
    - rewrite andb_true_r. split; [intros H; exists c; auto|intros (x & [<-|[]] & H); exact H].
    - rewrite orb_true_iff, IH. split.
      + intros [H|(x & I & H)]; [exists c; auto|exists x; auto].
      + intros (x & [<-|I] & H); [auto|right; exists x; auto].
  Qed.

  Lemma nth_app {A} (l : list A) x i : nth_error (l ++ [x]) i = if Nat.ltb i (List.length l) then nth_error l i else if Nat.eqb i (List.length l) then Some x else None.
  Proof.
    destruct (Nat.ltb_spec i (List.length l)) as [L|L]; [apply nth_error_app1; exact L|].
    rewrite nth_error_app2 by exact L. destruct (Nat.eqb_spec i (List.length l)) as [->|N]; [rewrite PeanoNat.Nat.sub_diag; reflexivity|].
    apply nth_error_None. simpl. lia.
  Qed.
  Lemma goes_one s a e : goes [s] a e <-> a = e /\ In e base /\ satisfies s e.
  Proof.
    split.
    - intros (es & (L & B & S & _) & F & E). change (nth_error es 0 = Some e) in E. rewrite F in E. injection E as ->. split; [reflexivity|]. split; [apply B; eapply nth_error_In; exact F|]. exact (S 0%nat s e eq_refl F).
    - intros (-> & B & S). exists [e]. repeat split; auto.
      + intros x [<-|[]]; exact B.
      + intros [|[|]] s' e' H1 H2; try discriminate. injection H1 as <-. injection H2 as <-. exact S.
      + destruct i as [|[|]]; discriminate.
      + destruct i as [|[|]]; discriminate.
      + intros [|[|]] ? ? ? H; discriminate H.
  Qed.
  Lemma goes_snoc ss s a e : ss <> [] -> (goes (ss ++ [s]) a e <-> exists p, goes ss a p /\ In e base /\ satisfies s e /\ same_person p e /\ before p e /\ within a e).
  Proof.
    intros NE. assert (LS : (1 <= List.length ss)%nat) by (destruct ss; [congruence|simpl; lia]). split.
    - intros (es & (L & B & S & Q & W) & F & E). rewrite app_length in L, E. simpl in L, E.
      destruct (@exists_last _ es) as [es' [z ->]]; [intros ->; simpl in L; lia|]. rewrite app_length in L. simpl in L.
      assert (LE : List.length es' = List.length ss) by lia.
      rewrite nth_app in E. replace (List.length ss + 1 - 1)%nat with (List.length es') in E by lia. rewrite PeanoNat.Nat.ltb_irrefl, PeanoNat.Nat.eqb_refl in E. injection E as ->.
      destruct (nth_error es' (List.length ss - 1)) as [p|] eqn:P; [|apply nth_error_None in P; lia].
      assert (F' : nth_error es' 0 = Some a) by (rewrite nth_app in F; destruct (Nat.ltb_spec 0 (List.length es')); [exact F|lia]).
      assert (Ez : nth_error (es' ++ [e]) (List.length es') = Some e) by (rewrite nth_app, PeanoNat.Nat.ltb_irrefl, PeanoNat.Nat.eqb_refl; reflexivity).
      assert (Pz : nth_error (es' ++ [e]) (List.length ss - 1) = Some p) by (rewrite nth_app; destruct (Nat.ltb_spec (List.length ss - 1) (List.length es')); [exact P|lia]).
      exists p. split.
      + exists es'. split; [|split; [exact F'|exact P]]. repeat split; auto.
        * intros x I. apply B. apply in_or_app. auto.
        * intros i s' e' H1 H2. apply (S i).
          -- rewrite nth_app. destruct (Nat.ltb_spec i (List.length ss)); [exact H1|]. apply nth_error_None in H. congruence.
          -- rewrite nth_app. destruct (Nat.ltb_spec i (List.length es')); [exact H2|]. apply nth_error_None in H. congruence.
        * apply (Q i); rewrite nth_app; match goal with |- context [Nat.ltb ?x ?y] => destruct (Nat.ltb_spec x y) as [|K]; [assumption|apply nth_error_None in K; congruence] end.
        * apply (Q i); rewrite nth_app; match goal with |- context [Nat.ltb ?x ?y] => destruct (Nat.ltb_spec x y) as [|K]; [assumption|apply nth_error_None in K; congruence] end.
        * intros i x y H1 H2. apply (W i); rewrite nth_app; match goal with |- context [Nat.ltb ?x ?y] => destruct (Nat.ltb_spec x y) as [|K]; [assumption|apply nth_error_None in K; congruence] end.
      + assert (Sx : List.length es' = Datatypes.S (List.length ss - 1)) by lia.
        split; [apply B; apply in_or_app; right; left; reflexivity|].
        split; [apply (S (List.length ss)); [rewrite nth_app, PeanoNat.Nat.ltb_irrefl, PeanoNat.Nat.eqb_refl; reflexivity|rewrite <- LE; exact Ez]|].
        rewrite Sx in Ez. destruct (Q _ _ _ Pz Ez) as [Q1 Q2]. split; [exact Q1|]. split; [exact Q2|]. exact (W _ _ _ F Ez).
    - intros (p & (es & (L & B & S & Q & W) & F & P) & Be & Se & Q1 & Q2 & We).
      exists (es ++ [e]). split; [|split].
      + split; [rewrite !app_length, L; reflexivity|]. split; [intros x I; apply in_app_or in I; destruct I as [I|[<-|[]]]; auto|]. split; [|split].
        * intros i s' e' H1 H2. rewrite nth_app in H1. rewrite nth_app in H2. rewrite L in H2.
          destruct (Nat.ltb_spec i (List.length ss)); [exact (S i s' e' H1 H2)|]. destruct (Nat.eqb i (List.length ss)); [|discriminate]. injection H1 as <-. injection H2 as <-. exact Se.
        * intros i x y H1 H2. change (nth_error (es ++ [e]) (Datatypes.S i) = Some y) in H2. rewrite nth_app in H1. rewrite nth_app in H2. rewrite L in H1, H2.
          destruct (Nat.ltb_spec (Datatypes.S i) (List.length ss)) as [K|K].
          -- destruct (Nat.ltb_spec i (List.length ss)); [|lia]. exact (Q i x y H1 H2).
          -- destruct (Nat.eqb_spec (Datatypes.S i) (List.length ss)) as [K'|]; [|discriminate]. injection H2 as <-.
             destruct (Nat.ltb_spec i (List.length ss)); [|lia]. replace (List.length ss - 1)%nat with i in P by lia. rewrite P in H1. injection H1 as <-. split; assumption.
        * intros i x y H1 H2. change (nth_error (es ++ [e]) (Datatypes.S i) = Some y) in H2. rewrite nth_app in H1. rewrite nth_app in H2. rewrite L in H1, H2. destruct (Nat.ltb_spec 0 (List.length ss)); [|lia]. rewrite F in H1. injection H1 as <-.
          destruct (Nat.ltb_spec (Datatypes.S i) (List.length ss)) as [K|K]; [exact (W i _ _ F H2)|].
          destruct (Nat.eqb_spec (Datatypes.S i) (List.length ss)); [|discriminate]. injection H2 as <-. exact We.
      + rewrite nth_app. destruct (Nat.ltb_spec 0 (List.length es)); [exact F|lia].
      + rewrite app_length. simpl. rewrite nth_app. replace (List.length ss + 1 - 1)%nat with (List.length es) by lia. rewrite PeanoNat.Nat.ltb_irrefl, PeanoNat.Nat.eqb_refl. reflexivity.
  Qed.

  (** ** The step queries *)
  Definition holds_rows (ss : list (fstep D)) (q : list (srow D)) : Prop :=
    forall r, In r q <-> exists a, goes ss a (sr_event r) /\ ev_time a = sr_first r.
  Lemma rows_first s : holds_rows [s] (step_1 s base).
  Proof.
    intros r. unfold step_1. rewrite in_map_iff. split.
    - intros (e & <- & I). apply filter_In in I. destruct I as [I H]. apply where_first in H. exists e. cbn. split; [|reflexivity]. apply goes_one. split; [reflexivity|]. split; [exact I|]. destruct s; exact H.
    - intros (a & G & T). apply goes_one in G. destruct G as (-> & B & S). exists (sr_event r). rewrite T. split; [destruct r; reflexivity|]. apply filter_In. split; [exact B|]. apply where_first. destruct s; exact S.
  Qed.
  Lemma null_eq_true (a b : option string) : null_eq a b = true <-> exists p, b = Some p /\ a = Some p.
  Proof.
    destruct a, b; cbn; split; intros H; try discriminate.
    - apply String.eqb_eq in H. subst. eauto.
    - destruct H as (p & A & B). injection A as ->. injection B as ->. apply String.eqb_refl.
    - destruct H as (p & A & B). discriminate.
    - destruct H as (p & A & B). discriminate.
    - destruct H as (p & A & B). discriminate.
  Qed.
  Lemma null_lt_true a b : null_lt a b = true <-> exists s e, a = Some s /\ b = Some e /\ s < e.
  Proof.
    destruct a, b; cbn; split; intros H; try discriminate; try (destruct H as (p & q & A & B & _); discriminate).
    - apply Z.ltb_lt in H. eauto.
    - destruct H as (p & q & A & B & L). injection A as ->. injection B as ->. apply Z.ltb_lt. exact L.
  Qed.
  Lemma in_window_true a b : in_window diff window a b = true <-> exists s e, a = Some s /\ b = Some e /\ diff s e <= window.
  Proof.
    destruct a, b; cbn; split; intros H; try discriminate; try (destruct H as (p & q & A & B & _); discriminate).
    - apply Z.leb_le in H. eauto.
    - destruct H as (p & q & A & B & L). injection A as ->. injection B as ->. apply Z.leb_le. exact L.
  Qed.
  Lemma rows_next ss s q : ss <> [] -> plain s -> holds_rows ss q -> holds_rows (ss ++ [s]) (step_n diff window s base q).
  Proof.
    intros NE PL H r. unfold step_n. rewrite in_flat_map. split.
    - intros (e & Be & I). apply in_flat_map in I. destruct I as (p & Ip & I).
      destruct (_ && _) eqn:C; [|destruct I]. destruct I as [<-|[]]. rewrite !andb_true_iff in C. destruct C as ((C1 & C2) & C3).
      apply where_plain in C3; [|exact PL]. destruct C3 as [C3 C4]. apply H in Ip. destruct Ip as (a & G & T). exists a. cbn. split; [|exact T].
      apply goes_snoc; [exact NE|]. exists (sr_event p). split; [exact G|]. split; [exact Be|]. split; [apply satisfies_plain; assumption|].
      apply null_eq_true in C1. apply null_lt_true in C2. rewrite <- T in C3. apply in_window_true in C3. auto.
    - intros (a & G & T). apply goes_snoc in G; [|exact NE]. destruct G as (p & G & Be & S & C1 & C2 & C3).
      exists (sr_event r). split; [exact Be|]. apply in_flat_map. exists (SRow p (ev_time a)). split; [apply H; exists a; auto|].
      cbn [sr_event sr_first]. rewrite T in *.
      assert (E : null_eq (ev_person (sr_event r)) (ev_person p) && null_lt (ev_time p) (ev_time (sr_event r)) && where_holds s (ev_data (sr_event r)) (in_window diff window (sr_first r) (ev_time (sr_event r))) = true).
      { rewrite !andb_true_iff. split; [split; [apply null_eq_true; exact C1|apply null_lt_true; exact C2]|]. apply where_plain; [exact PL|]. split; [apply in_window_true; rewrite <- T; exact C3|apply satisfies_plain; assumption]. }
      rewrite E. left. destruct r; reflexivity.
  Qed.
  Lemma later_rows : forall rest ss q, ss <> [] -> (forall s, In s rest -> plain s) -> holds_rows ss q ->
    List.length (later_steps diff window rest base q) = List.length rest
    /\ forall n l, nth_error (later_steps diff window rest base q) n = Some l -> holds_rows (ss ++ firstn (S n) rest) l.
  Proof.
    induction rest as [|s rest IH]; intros ss q NE PL H; [split; [reflexivity|intros [|] l E; discriminate E]|].
    cbn [later_steps]. pose proof (rows_next ss s q NE (PL s (or_introl eq_refl)) H) as H1.
    destruct (IH (ss ++ [s]) _ ltac:(destruct ss; discriminate) (fun x I => PL x (or_intror I)) H1) as [L R].
    split; [simpl; rewrite L; reflexivity|]. intros [|n] l E.
    - injection E as <-. exact H1.
    - cbn [nth_error] in E. apply R in E. rewrite <- app_assoc in E. exact E.
  Qed.
End Spec.

Section C34.
  Context {D : Type}.
  Variable base : list (event D).
  Variable diff : Z -> Z -> Z.
  Variable window : Z.
  Notation goes := (goes base diff window).

  (** The rows of step n+1 are the events that end a chain through the first n+1 steps. *)
  Theorem C34_steps ss qs : step_queries diff window ss base = Ok qs -> (forall s, In s (tl ss) -> plain s) ->
    List.length qs = List.length ss /\
    forall n q, nth_error qs n = Some q -> forall e, (exists r, In r q /\ sr_event r = e) <-> exists a, goes (firstn (S n) ss) a e.
  Proof.
    destruct ss as [|s ss]; [discriminate|]. cbn [tl]. intros E PL. injection E as <-.
    pose proof (rows_first base diff window s) as H. destruct (later_rows base diff window ss [s] _ ltac:(discriminate) PL H) as [L R].
    split; [simpl; rewrite L; reflexivity|]. intros n q E e.
    assert (HR : holds_rows base diff window (firstn (S n) (s :: ss)) q).
    { destruct n as [|n]; [injection E as <-; exact H|]. apply R in E. exact E. }
    split.
    - intros (r & I & <-). apply HR in I. destruct I as (a & G & _). eauto.
    - intros (a & G). exists (SRow e (ev_time a)). split; [|reflexivity]. apply HR. exists a. split; [exact G|reflexivity].
  Qed.
  Lemma persons_In (q : list (srow D)) p : In p (persons q) <-> exists r, In r q /\ ev_person (sr_event r) = Some p.
  Proof.
    unfold persons. rewrite dedup_In, in_flat_map. split.
    - intros (r & I & H). exists r. split; [exact I|]. destruct (ev_person (sr_event r)); [destruct H as [->|[]]; reflexivity|destruct H].
    - intros (r & I & H). exists r. split; [exact I|]. rewrite H. left. reflexivity.
  Qed.
  (** A person is counted at a step exactly when a chain of their events leads there. *)
  Theorem C34_persons ss qs n q p : step_queries diff window ss base = Ok qs -> (forall s, In s (tl ss) -> plain s) -> nth_error qs n = Some q ->
    In p (persons q) <-> exists es, chain base diff window (firstn (S n) ss) es /\ forall e, In e es -> ev_person e = Some p.
  Proof.
    intros E PL N. destruct (C34_steps ss qs E PL) as [L R]. rewrite persons_In.
    assert (LN : (List.length (firstn (S n) ss) - 1 = n)%nat /\ (List.length (firstn (S n) ss) = S n)).
    { assert (n < List.length qs)%nat by (apply nth_error_Some; congruence). rewrite firstn_length. lia. }
    destruct LN as [LN LS].
    split.
    - intros (r & I & P). destruct (proj1 (R n q N (sr_event r))) as (a & es & C & F & Z); [exists r; auto|]. exists es. split; [exact C|].
      destruct C as (LE & _ & _ & Q & _). rewrite LN in Z.
      assert (BW : forall k e, (k <= n)%nat -> nth_error es (n - k) = Some e -> ev_person e = Some p).
      { induction k as [|k IH]; intros e K H; [rewrite PeanoNat.Nat.sub_0_r, Z in H; injection H as <-; exact P|].
        destruct (nth_error es (n - k)) as [e'|] eqn:H'; [|apply nth_error_None in H'; lia].
        replace (n - k)%nat with (S (n - S k)) in H' by lia. destruct (Q _ _ _ H H') as [(p' & A & B) _].
        replace (S (n - S k)) with (n - k)%nat in H' by lia. rewrite (IH e' ltac:(lia) eq_refl) in B. congruence. }
      intros e Ie. apply In_nth_error in Ie. destruct Ie as [i Ie]. assert (i < List.length es)%nat by (apply nth_error_Some; congruence).
      apply (BW (n - i)%nat); [lia|]. replace (n - (n - i))%nat with i by lia. exact Ie.
    - intros (es & C & P). pose proof C as (LE & _). destruct (nth_error es n) as [e|] eqn:H; [|apply nth_error_None in H; lia].
      destruct (nth_error es 0) as [a|] eqn:F; [|apply nth_error_None in F; lia].
      destruct (proj2 (R n q N e)) as (r & I & Er); [exists a, es; rewrite LN; auto|]. exists r. split; [exact I|]. rewrite Er. apply P. eapply nth_error_In. exact H.
  Qed.
  Lemma chain_prefix ss es n : chain base diff window (firstn (S (S n)) ss) es -> chain base diff window (firstn (S n) ss) (firstn (S n) es).
  Proof.
    intros (L & B & S & Q & W).
    assert (NF : forall A (l : list A) k i (x : A), nth_error (firstn k l) i = Some x -> nth_error l i = Some x /\ (i < k)%nat).
    { intros A l. induction l as [|y l IH]; intros [|k] [|i] x H; try discriminate; cbn in *; [split; [exact H|lia]|]. apply IH in H. destruct H. split; [assumption|lia]. }
    assert (FN : forall A (l : list A) k i (x : A), nth_error l i = Some x -> (i < k)%nat -> nth_error (firstn k l) i = Some x).
    { intros A l. induction l as [|y l IH]; intros [|k] [|i] x H K; try discriminate; try lia; cbn in *; [exact H|]. apply IH; [exact H|lia]. }
    split; [rewrite !firstn_length in *; lia|]. split; [|split; [|split]].
    - intros e I. apply B. clear -I. revert I. generalize (Datatypes.S n). intros k. revert k. induction es as [|x es IH]; intros [|k] I; try destruct I; [left; assumption|right; eapply IH; eassumption].
    - intros i s e H1 H2. apply NF in H1, H2. destruct H1, H2. apply (S i); [apply FN; [assumption|lia]|assumption].
    - intros i a b H1 H2. apply NF in H1, H2. destruct H1, H2. exact (Q i a b H H1).
    - intros i a b H1 H2. apply NF in H1, H2. destruct H1, H2. exact (W i a b H H1).
  Qed.
  (** Who is at a step was at every step before: the number of people never increases. *)
  Theorem C34_monotone ss qs n q q' : step_queries diff window ss base = Ok qs -> (forall s, In s (tl ss) -> plain s) ->
    nth_error qs n = Some q -> nth_error qs (S n) = Some q' ->
    incl (persons q') (persons q) /\ (List.length (persons q') <= List.length (persons q))%nat.
  Proof.
    intros E PL N N'. assert (I : incl (persons q') (persons q)).
    { intros p Ip. apply (proj1 (C34_persons ss qs (S n) q' p E PL N')) in Ip. destruct Ip as (es & C & P).
      apply (proj2 (C34_persons ss qs n q p E PL N)). exists (firstn (S n) es). split; [apply chain_prefix; exact C|].
      intros e Ie. apply P. clear -Ie. revert Ie. generalize (S n). intros k. revert k. induction es as [|x es IH]; intros [|k] I; try destruct I; [left; assumption|right; eapply IH; eassumption]. }
    split; [exact I|]. apply NoDup_incl_length; [apply NoDup_dedup|exact I].
  Qed.
  (** Metrics: the primary keys they are computed over are those of the events that end a chain, each once however
      many chains end with it. *)
  Theorem C34_keys key ss qs n q k : step_queries diff window ss base = Ok qs -> (forall s, In s (tl ss) -> plain s) -> nth_error qs n = Some q ->
    NoDup (keys_of key q) /\ (In k (keys_of key q) <-> exists a e, goes (firstn (S n) ss) a e /\ key (ev_data e) = Some k).
  Proof.
    intros E PL N. split; [apply NoDup_dedup|]. destruct (C34_steps ss qs E PL) as [_ R]. unfold keys_of. rewrite dedup_In, in_flat_map. split.
    - intros (r & I & H). destruct (proj1 (R n q N (sr_event r))) as [a G]; [exists r; auto|]. exists a, (sr_event r). split; [exact G|].
      destruct (key _); [destruct H as [->|[]]; reflexivity|destruct H].
    - intros (a & e & G & H). destruct (proj2 (R n q N e)) as (r & I & <-); [exists a; exact G|]. exists r. split; [exact I|]. rewrite H. left. reflexivity.
  Qed.
End C34.
Print Assumptions C34_steps.
Print Assumptions C34_persons.
Print Assumptions C34_monotone.
Print Assumptions C34_keys.

(** The window in terms of time: everyone whose events are at most n units after the first is through, nobody
    with an event n+1 units after it; the warehouse's duration counts units up to one (C51). *)
Theorem C34_window D (base : list (event D)) diff n u l ss es i a b s e : (forall s e, s <= e -> near u s e (diff s e)) -> assoc u fixed = Some l ->
  chain base diff n ss es -> nth_error es 0 = Some a -> nth_error es (S i) = Some b -> ev_time a = Some s -> ev_time b = Some e -> s <= e ->
  e - s < (n + 1) * l.
Proof.
  intros N F (_ & _ & _ & _ & W) A B S E L. destruct (W i a b A B) as (s' & e' & S' & E' & H). rewrite S in S'. rewrite E in E'. injection S' as <-. injection E' as <-.
  destruct (C51_windows u l 0 s e (diff s e) n (N s e L)) as [C _]. apply C; assumption.
Qed.
Print Assumptions C34_window.
Theorem C34_window_complete D (a b : event D) diff n u l s e : (forall s e, s <= e -> near u s e (diff s e)) -> assoc u fixed = Some l ->
  ev_time a = Some s -> ev_time b = Some e -> s <= e -> e - s <= n * l -> within diff n a b.
Proof.
  intros N F S E L H. exists s, e. split; [exact S|]. split; [exact E|]. destruct (C51_windows u l 0 s e (diff s e) n (N s e L)) as [C _]. apply C; assumption.
Qed.
Print Assumptions C34_window_complete.

(** ** A concrete funnel: data is (what happened, primary key) *)
Definition is_ (w : string) : fstep (string * string) := SConditions [fun d => String.eqb (fst d) w].
Definition ev p t w k : event (string * string) := Event (Some p) (Some t) (w, k).
Definition ex_base := [ev "ann" 0 "visit" "1"; ev "ann" 5 "visit" "2"; ev "ann" 9 "buy" "3"; ev "bob" 1 "visit" "4"; ev "bob" 90 "buy" "5"; ev "eve" 3 "buy" "6"; ev "eve" 4 "visit" "7"].
Definition ex_diff (s e : Z) : Z := e - s.
Example C34_example : exists q1 q2, step_queries ex_diff 10 [is_ "visit"; is_ "buy"] ex_base = Ok [q1; q2]
  /\ persons q1 = ["ann"; "bob"; "eve"] /\ persons q2 = ["ann"] /\ keys_of (fun d => Some (snd d)) q2 = ["3"] /\ List.length q2 = 2%nat.
Proof. do 2 eexists. split; [reflexivity|]. vm_compute. repeat split. Qed.

(** With dimensions the counts of a group may increase: the group is that of the event, not of the person. *)
Theorem C34_group_increase_refuted : exists q1 q2, step_queries ex_diff 10 [is_ "visit"; is_ "buy"] ex_base = Ok [q1; q2]
  /\ persons (group_rows fst "buy" q1) = [] /\ persons (group_rows fst "buy" q2) = ["ann"].
Proof. do 2 eexists. split; [reflexivity|]. vm_compute. repeat split. Qed.
Print Assumptions C34_group_increase_refuted.
(** Metrics of events, not of people, may increase as well. *)
Theorem C34_events_increase_refuted : exists base q1 q2, step_queries ex_diff 10 [is_ "visit"; is_ "buy"] base = Ok [q1; q2]
  /\ keys_of (fun d => Some (snd d)) q1 = ["1"] /\ keys_of (fun d => Some (snd d)) q2 = ["2"; "3"].
Proof. exists [ev "ann" 0 "visit" "1"; ev "ann" 1 "buy" "2"; ev "ann" 2 "buy" "3"]. do 2 eexists. split; [reflexivity|]. vm_compute. repeat split. Qed.
Print Assumptions C34_events_increase_refuted.
(** A step written as text with a top-level OR escapes the window: bob bought long after. *)
Theorem C34_text_step_refuted : exists q1 q2,
  step_queries ex_diff 10 [is_ "visit"; SText (fun d => String.eqb (fst d) "buy") [fun d => String.eqb (fst d) "gift"]] ex_base = Ok [q1; q2]
  /\ In "bob" (persons q2)
  /\ ~ exists a e, ev_person e = Some "bob" /\ goes ex_base ex_diff 10 [is_ "visit"; SText (fun d => String.eqb (fst d) "buy") [fun d => String.eqb (fst d) "gift"]] a e.
Proof.
  do 2 eexists. split; [reflexivity|]. split; [vm_compute; tauto|].
  intros (a & e & P & es & (L & B & S & Q & W) & F & E). change (nth_error es 1 = Some e) in E.
  pose proof (S 0%nat _ _ eq_refl F) as Sa. pose proof (S 1%nat _ _ eq_refl E) as Se. destruct (Q 0%nat _ _ F E) as [(p & Pa & Pe) _]. destruct (W 0%nat _ _ F E) as (s & t & Ts & Tt & H).
  apply nth_error_In in F, E. apply B in F, E. rewrite P in Pe. injection Pe as <-. clear -Sa Se F E P Pa Ts Tt H.
  simpl in F, E. destruct F as [<-|[<-|[<-|[<-|[<-|[<-|[<-|[]]]]]]]]; cbn in Pa; try discriminate Pa;
    destruct E as [<-|[<-|[<-|[<-|[<-|[<-|[<-|[]]]]]]]]; cbn in P; try discriminate P;
    cbn in Sa, Se, Ts, Tt; try (specialize (Sa _ (or_introl eq_refl)); discriminate Sa);
    try (injection Ts as <-; injection Tt as <-; unfold ex_diff in H; lia).
  destruct Se as (c & [<-|[<-|[]]] & K); discriminate K.
Qed.
Print Assumptions C34_text_step_refuted.

(** A funnel needs steps and within; an empty list of steps is accepted and fails later. *)
Theorem C34_definition keys : (parse_funnel keys = Ok true <-> In "steps" keys /\ In "within" keys) /\ (parse_funnel keys = Ok false <-> keys = [])
  /\ (parse_funnel keys = Err QueryError <-> keys <> [] /\ ~ (In "steps" keys /\ In "within" keys)).
Proof.
  unfold parse_funnel. destruct keys as [|k r]; [split; [|split]; split; intros H; try discriminate H; try reflexivity; destruct H as [[] _] || destruct H as [H _]; congruence|].
  destruct (mem "steps" (k :: r) && mem "within" (k :: r)) eqn:M.
  - apply andb_true_iff in M. destruct M as [A B]. apply mem_In in A, B. split; [|split]; split; intros H; try discriminate H; auto; try (destruct H as [_ H]; exfalso; apply H; auto).
  - assert (N : ~ (In "steps" (k :: r) /\ In "within" (k :: r))) by (intros [A B]; apply mem_In in A, B; rewrite A, B in M; discriminate).
    split; [|split]; split; intros H; try discriminate H; auto; try contradiction. split; [discriminate|exact N].
Qed.
Print Assumptions C34_definition.
Theorem C34_no_steps_refuted : forall D (base : list (event D)) diff w, step_queries diff w [] base = Err UnboundLocal.
Proof. reflexivity. Qed.
Print Assumptions C34_no_steps_refuted.
(** The event date: the default date of the funnel's view or of the view of the only metric *)
Theorem C34_event_date default_date v d m : default_date v = Some d -> has_char dot d = false ->
  event_date default_date (Some v) m = Ok (v ++ "." ++ d ++ "_raw")%string /\ event_date default_date None [v] = Ok (v ++ "." ++ d ++ "_raw")%string.
Proof. intros E N. unfold event_date, date_of_view. cbn [mapM bind]. rewrite E, N. split; reflexivity. Qed.
Print Assumptions C34_event_date.
(** Without a view name, a view that has no default date raises a TypeError; with it, a date named None is asked for *)
Theorem C34_no_event_date default_date v m : default_date v = None ->
  event_date default_date None (v :: m) = Err TypeError /\ event_date default_date (Some v) m = Ok (v ++ ".None_raw")%string.
Proof. intros E. unfold event_date, date_of_view. cbn [mapM bind]. rewrite E. split; reflexivity. Qed.
Print Assumptions C34_no_event_date.
(** Two metrics of one view have one event date, yet are refused without a view name; and a default date of
    another view gives a name of three parts when the view is named. *)
Theorem C34_event_date_refuted :
  event_date (fun _ => Some "order") None ["orders"; "orders"] = Err QueryError
  /\ event_date (fun _ => Some "orders.order") None ["lines"] = Ok "orders.order_raw"
  /\ event_date (fun _ => Some "orders.order") (Some "lines") ["lines"] = Ok "lines.orders.order_raw".
Proof. repeat split. Qed.
Print Assumptions C34_event_date_refuted.
