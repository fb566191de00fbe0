(** C88 for durations (core/model/field.py:911-1010): what a duration can be put inside.  The two dates stand between the brackets
    and commas of a function, so a function with them is one token here. *)
From Coq Require Import List String Bool Arith ZArith Lia.
From Verif Require Import PyBase PyStr Prec_Model Prec_Spec Prec_Proofs Prec_Exact Prec_Props Duration_Model PrecTime_Text.
Import ListNotations.
Local Open Scope string_scope.
Local Open Scope list_scope.
Local Open Scope nat_scope.

Section Duration.
  Variables start end_ : string.
  Definition term_toks (t : datom * list Z) : list tok :=
    fold_left (fun ts n => ts ++ [TOp (OMul "*"); TAtom (z_text n)]) (snd t) [TAtom (atom_text start end_ (fst t))].
  Definition toks (x : dsql) : list tok :=
    match x with [] => [] | t :: r => fold_left (fun ts t => ts ++ TOp (OAdd "+") :: term_toks t) r (term_toks t) end.
  (** a sum of products *)
  Definition term_means (t : datom * list Z) : expr :=
    fold_left (fun e n => EBin (OMul "*") e (EAtom (z_text n))) (snd t) (EAtom (atom_text start end_ (fst t))).
  Definition sum_means (t : datom * list Z) (r : dsql) : expr := fold_left (fun e t => EBin (OAdd "+") e (term_means t)) r (term_means t).

  Lemma term_R lv t : R lv 6 (term_toks t) (term_means t).
  Proof.
    unfold term_toks, term_means. destruct t as [a ns]. cbn [fst snd].
    assert (A : R lv 6 [TAtom (atom_text start end_ a)] (EAtom (atom_text start end_ a))) by (apply read_atom; lia).
    revert A. generalize [TAtom (atom_text start end_ a)], (EAtom (atom_text start end_ a)).
    induction ns as [|n ns IH]; intros ts e A; [exact A|]. cbn [fold_left]. apply IH.
    apply (R_bin lv (OMul "*") ts e [TAtom (z_text n)]); [exact A | apply read_atom; cbn; lia].
  Qed.
  Lemma sum_R lv r : forall ts e, R lv 5 ts e ->
    R lv 5 (fold_left (fun ts t => ts ++ TOp (OAdd "+") :: term_toks t) r ts) (fold_left (fun e t => EBin (OAdd "+") e (term_means t)) r e).
  Proof.
    induction r as [|t r IH]; intros ts e A; [exact A|]. cbn [fold_left]. apply IH.
    apply (R_bin lv (OAdd "+")); [exact A | apply term_R].
  Qed.
  (** the whole is a sum as soon as there are two terms *)
  Lemma sum_exact lv t r n : r <> [] -> R lv n (toks (t :: r)) (sum_means t r) -> n <= 5.
  Proof.
    intros N H. destruct (@exists_last _ r N) as [r0 [z Z]]. subst r. unfold toks, sum_means in H. rewrite !fold_left_app in H. cbn [fold_left] in H.
    assert (S : shape (fold_left (fun ts t => ts ++ TOp (OAdd "+") :: term_toks t) r0 (term_toks t))
                  (fold_left (fun e t => EBin (OAdd "+") e (term_means t)) r0 (term_means t))).
    { eapply R_shape. apply (sum_R lv r0). apply (R_weaken _ 6); [apply term_R | lia]. }
    assert (S' : shape (term_toks z) (term_means z)) by (eapply R_shape; apply (term_R lv z)).
    destruct (bin_inv _ _ _ _ H _ _ _ _ _ eq_refl eq_refl S S') as [_ [_ L]]. exact L.
  Qed.
  (** The units a duration is a sum in: those of postgres made from several parts of the age *)
  Definition summed (qt u : string) : bool := String.eqb qt "POSTGRES" && mem u ["seconds"; "minutes"; "hours"; "months"; "quarters"].
  Lemma duration_form qt u x : duration_sql qt u = Ok x ->
    exists t r, x = t :: r /\ (summed qt u = false -> snd t = [] /\ r = []) /\ (summed qt u = true -> r <> []).
  Proof.
    intro H. unfold duration_sql, summed in *.
    assert (U : forall fn q, match uniform fn q u with Some x => Ok x | None => Err QueryError end = Ok x -> exists a, x = one a).
    { intros fn q E. unfold uniform in E. destruct (assoc u units); [|discriminate]. injection E as <-. eauto. }
    assert (K : forall b : bool, b = false -> (exists a, x = one a) ->
      exists t r, x = t :: r /\ (b = false -> snd t = [] /\ r = []) /\ (b = true -> r <> [])).
    { intros b B [a ->]. exists (a, []), []. split; [reflexivity|]. split; [auto|]. congruence. }
    destruct (String.eqb qt "POSTGRES") eqn:P.
    - apply String.eqb_eq in P. subst qt.
      assert (H' : match postgres u with Some x => Ok x | None => Err QueryError end = Ok x) by exact H. clear H. rename H' into H.
      destruct (postgres u) as [y|] eqn:Q; [|discriminate]. injection H as ->.
      unfold postgres in Q. apply assoc_In in Q. cbn [In] in Q.
      repeat destruct Q as [Q|Q]; try contradiction; injection Q as <- <-; cbn; do 2 eexists; (split; [reflexivity|]); cbn; split; intro B;
        try discriminate B; try discriminate; auto.
    - apply K; [reflexivity|]. destruct (mem qt ["SNOWFLAKE"; "REDSHIFT"; "DUCK_DB"]); [eapply U; exact H|].
      destruct (String.eqb qt "TRINO"); [eapply U; exact H|]. destruct (String.eqb qt "DRUID"); [eapply U; exact H|].
      destruct (mem qt ["SQL_SERVER"; "DATABRICKS"; "AZURE_SYNAPSE"]); [eapply U; exact H|].
      destruct (String.eqb qt "BIGQUERY"); [|discriminate]. destruct (bigquery u) as [y|] eqn:Q; [|discriminate]. injection H as ->.
      unfold bigquery in Q. apply assoc_In in Q. cbn [In] in Q. repeat destruct Q as [Q|Q]; try contradiction; injection Q as <- <-; eexists; reflexivity.
  Qed.
End Duration.
(** A duration can be put anywhere, except in postgres in the units made of several parts: there it is a sum of products, and can be put
    no deeper than in a sum. *)
Theorem C88_duration : forall start end_ qt u x lv n, duration_sql qt u = Ok x -> n <= 7 ->
  exists t r, x = t :: r /\
    (R lv n (toks start end_ x) (sum_means start end_ t r) <-> (summed qt u = true -> n <= 5)).
Proof.
  intros start end_ qt u x lv n H L. destruct (duration_form _ _ _ H) as [t [r [-> [A B]]]]. exists t, r. split; [reflexivity|].
  destruct (summed qt u) eqn:S.
  - split; [intros Q _; eapply sum_exact; [apply B; reflexivity | exact Q]|]. intro Q. apply (R_weaken _ 5); [|apply Q; reflexivity].
    apply sum_R. apply (R_weaken _ 6); [apply term_R | lia].
  - split; [discriminate|]. intros _. destruct (A eq_refl) as [E ->]. destruct t as [a ns]. cbn in E. subst ns. cbn. apply read_atom. exact L.
Qed.
(** The tokens spell the text of the duration. *)
Theorem C88_duration_text : forall start end_ x, x <> [] -> spells (toks start end_ x) (text start end_ x).
Proof.
  intros start end_ x N. destruct x as [|t r]; [contradiction|]. unfold toks, text. clear N.
  assert (T : forall t, spells (term_toks start end_ t) (term_text start end_ t)).
  { intros [a ns]. unfold term_toks, term_text. cbn [fst snd].
    assert (F : forall ns ts s, spells ts s ->
      spells (fold_left (fun ts n => ts ++ [TOp (OMul "*"); TAtom (z_text n)]) ns ts) (fold_left (fun s n => (s ++ " * " ++ z_text n)%string) ns s)).
    { clear. induction ns as [|n ns IH]; intros ts s A; [exact A|]. cbn [fold_left]. apply IH. apply (spells_last _ _ (OMul "*")). exact A. }
    apply F. apply spells_atom. }
  pose (rest := fix rest (r : dsql) : string := match r with [] => "" | u :: r => (" + " ++ term_text start end_ u ++ rest r)%string end).
  assert (J : forall r t, join_with " + " (map (term_text start end_) (t :: r)) = (term_text start end_ t ++ rest r)%string).
  { induction r0 as [|u r0 IH]; intro t0; [cbn; now rewrite append_nil_r|].
    change (join_with " + " (map (term_text start end_) (t0 :: u :: r0)))
      with (term_text start end_ t0 ++ " + " ++ join_with " + " (map (term_text start end_) (u :: r0)))%string.
    now rewrite IH. }
  rewrite J. assert (S := T t). revert S. generalize (term_toks start end_ t), (term_text start end_ t).
  induction r as [|u r IH]; intros ts s A; cbn [fold_left rest].
  - eapply spells_eq; [exact A|]. now rewrite append_nil_r.
  - eapply spells_eq; [apply IH; apply (spells_bin ts s (OAdd "+") _ (term_text start end_ u)); [exact A | apply T]|]. now rewrite !sapp_assoc.
Qed.
(** Half of the hours between two dates: only the last of the parts is halved. *)
Definition stay (x : string) : option fdef :=
  match duration_sql "POSTGRES" "hours" with
  | Ok d => assoc x [("hours", Fdef KDim (toks "a" "b" d) "o_hours"); ("half", Fdef KDim [TRef "hours"; TOp (OMul "/"); TAtom "2"] "o_half")]
  | Err _ => None
  end.
(** two days and four hours *)
Definition two_days (s : string) : Z :=
  (if String.eqb s "DATE_PART('DAY', AGE(b, a))" then 2 else if String.eqb s "DATE_PART('HOUR', AGE(b, a))" then 4 else
   if String.eqb s "24" then 24 else 2)%Z.
Theorem C88_duration_refuted : exists p fuel x t e e' row,
  full_text p fuel x = Ok t /\ means p x e /\ reads t e' /\ value row same e = 26%Z /\ value row same e' = 50%Z.
Proof.
  pose (day := EBin (OMul "*") (EAtom "DATE_PART('DAY', AGE(b, a))") (EAtom "24")). pose (hour := EAtom "DATE_PART('HOUR', AGE(b, a))").
  exists stay, 9, "half". eexists. exists (EBin (OMul "/") (EBin (OAdd "+") day hour) (EAtom "2")), (EBin (OAdd "+") day (EBin (OMul "/") hour (EAtom "2"))).
  exists two_days. split; [reflexivity|]. split; [|split; [|split; reflexivity]].
  - exists 2. do 3 eexists. split; [reflexivity|]. split; [apply (read_bin _ 0 (OMul "/") [TRef "hours"]); cbn; [leaf | leaf | lia]|].
    split; [|reflexivity]. constructor; [|constructor]. constructor. do 3 eexists. split; [reflexivity|]. cbn [f_sql f_kind]. split; [|split; [|reflexivity]].
    + destruct (C88_duration "a" "b" "POSTGRES" "hours" _ (fun _ => 7) 0 eq_refl ltac:(lia)) as [t [r [E [_ Q]]]]. injection E as <- <-.
      apply Q. intros _. lia.
    + cbn. repeat constructor.
  - unfold reads.
    apply (read_bin _ 0 (OAdd "+") [TAtom "DATE_PART('DAY', AGE(b, a))"; TOp (OMul "*"); TAtom "24"] _ [TAtom "DATE_PART('HOUR', AGE(b, a))"; TOp (OMul "/"); TAtom "2"]);
      cbn [prec]; [| |lia].
    + apply (read_bin _ 5 (OMul "*") [TAtom "DATE_PART('DAY', AGE(b, a))"]); cbn; [leaf | leaf | lia].
    + apply (read_bin _ 6 (OMul "/") [TAtom "DATE_PART('HOUR', AGE(b, a))"]); cbn; [leaf | leaf | lia].
Qed.
Example C88_duration_example :
  (exists x, duration_sql "POSTGRES" "hours" = Ok x /\ x <> [] /\ summed "POSTGRES" "hours" = true /\
     spell [] (toks "a" "b" x) = "DATE_PART('DAY', AGE(b, a)) * 24 + DATE_PART('HOUR', AGE(b, a))") /\
  (exists x, duration_sql "SNOWFLAKE" "hours" = Ok x /\ summed "SNOWFLAKE" "hours" = false).
Proof. split; eexists; repeat split; discriminate. Qed.

Print Assumptions C88_duration.
Print Assumptions C88_duration_text.
Print Assumptions C88_duration_refuted.
