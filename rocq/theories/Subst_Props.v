(** Specification and property theorems: C39, expansion of references in SQL. *)
From Coq Require Import List String Ascii Bool Lia.
From Verif Require Import PyBase PyList PyStr PyReplace PyRefs Subst_Model.
Import ListNotations.
Local Open Scope string_scope.
Local Open Scope list_scope.
Local Open Scope nat_scope.

(** ** Specification: SQL is text and references; its expansion puts the expansion of the field in place of each
    reference, the view's name in place of ${TABLE}, and nothing else. *)
Inductive seg := Text (s : string) | Ref (n : string).
Definition seg_text (s : seg) : string := match s with Text t => t | Ref n => ("${" ++ n ++ "}")%string end.
Fixpoint cat (l : list string) : string := match l with [] => "" | s :: l => (s ++ cat l)%string end.
Definition sql_of (l : list seg) : string := cat (map seg_text l).
(** text without a dollar; names without dollar, closing brace or newline *)
Definition plain (s : string) : bool := negb (has_char "$" s).
Definition good_seg (s : seg) : Prop :=
  match s with Text t => plain t = true | Ref n => plain n = true /\ has_char rbrace n = false /\ has_char newline n = false end.
Definition refs_of (l : list seg) : list string := flat_map (fun s => match s with Ref n => [n] | Text _ => [] end) l.

(** every run of spaces becomes one space *)
Fixpoint spaces (n : nat) : string := match n with O => "" | S n => String " " (spaces n) end.
Inductive squeezed : string -> string -> Prop :=
| sq_nil : squeezed "" ""
| sq_char c s t : c <> " "%char -> squeezed s t -> squeezed (String c s) (String c t)
| sq_run n s t : (forall r, s <> String " " r) -> squeezed s t -> squeezed (spaces (S n) ++ s)%string (String " " t).

Section Spec.
  Variable get_field : string -> string -> res xfield.
  Definition refers (g f : xfield) : Prop :=
    exists segs n, xf_sql f = Some (sql_of segs) /\ Forall good_seg segs /\ In n (refs_of segs) /\ n <> "TABLE" /\ get_field (xf_view f) n = Ok g.
  Inductive expands : xfield -> string -> Prop :=
  | expand_field f segs parts t :
      xf_number_measure f = false -> xf_sql f = Some (sql_of segs) -> Forall good_seg segs ->
      Forall2 (expands_seg f) segs parts -> squeezed (strip (cat parts)) t -> expands f (xf_wrap f t)
  with expands_seg : xfield -> seg -> string -> Prop :=
  | expand_text f t : expands_seg f (Text t) t
  | expand_table f : expands_seg f (Ref "TABLE") (xf_view f)
  | expand_ref f n g t : n <> "TABLE" -> get_field (xf_view f) n = Ok g -> expands g t -> expands_seg f (Ref n) t.
End Spec.

(** ** Reading the references *)
Lemma refs_fuel_enough f : forall f' s, String.length s < f -> String.length s < f' -> refs_fuel f s = refs_fuel f' s.
Proof.
  induction f as [|f IH]; intros [|f'] s L L'; try lia. cbn [refs_fuel]. destruct s as [|c r]; auto. cbn [String.length] in *.
  assert (U : forall t a b, upto_brace t = Some (a, b) -> String.length b < String.length t).
  { clear. induction t as [|c t IH]; intros a b H; [discriminate H|]. cbn [upto_brace] in H. destruct (Ascii.eqb c rbrace); [injection H as <- <-; cbn; lia|].
    destruct (Ascii.eqb c newline); [discriminate H|]. destruct (upto_brace t) as [[a' b']|] eqn:E; [|discriminate]. injection H as <- <-. specialize (IH _ _ eq_refl). cbn. lia. }
  destruct (strip_prefix "${" (String c r)) as [t|] eqn:E.
  - apply strip_prefix_length in E. cbn [String.length] in E. destruct (upto_brace t) as [[a b]|] eqn:B.
    + apply U in B. f_equal. apply IH; lia.
    + apply IH; lia.
  - apply IH; lia.
Qed.
Lemma refs_text t s : plain t = true -> fields_to_replace (t ++ s)%string = fields_to_replace s.
Proof.
  unfold fields_to_replace. induction t as [|c t IH]; intros P; [reflexivity|]. unfold plain in P. cbn [has_char] in P. rewrite negb_orb in P. apply andb_true_iff in P. destruct P as [P1 P2].
  cbn [append String.length]. change (refs_fuel (S (S (String.length (t ++ s)))) (String c (t ++ s))) with
    (match strip_prefix "${" (String c (t ++ s)) with
     | Some u => match upto_brace u with Some (a, b) => a :: refs_fuel (S (String.length (t ++ s))) b | None => refs_fuel (S (String.length (t ++ s))) (t ++ s) end
     | None => refs_fuel (S (String.length (t ++ s))) (t ++ s) end).
  replace (strip_prefix "${" (String c (t ++ s))) with (@None string); [now apply IH|]. cbn [strip_prefix].
  destruct (Ascii.eqb_spec "$" c) as [<-|]; [discriminate P1|reflexivity].
Qed.
Lemma upto_name n s : has_char rbrace n = false -> has_char newline n = false -> upto_brace (n ++ String rbrace s)%string = Some (n, s).
Proof.
  induction n as [|c n IH]; intros B N; [reflexivity|]. cbn [has_char] in B, N. apply orb_false_iff in B. destruct B as [B1 B2]. apply orb_false_iff in N. destruct N as [N1 N2].
  cbn [append upto_brace]. now rewrite B1, N1, IH.
Qed.
Lemma refs_ref n s : has_char rbrace n = false -> has_char newline n = false ->
  fields_to_replace (("${" ++ n ++ "}") ++ s)%string = n :: fields_to_replace s.
Proof.
  intros B N. rewrite !append_assoc. unfold fields_to_replace. cbn [append String.length].
  assert (ST : forall k u, refs_fuel (S k) (String "$" (String "{" u)) = match upto_brace u with Some (a, b) => a :: refs_fuel k b | None => refs_fuel k (String "{" u) end) by reflexivity.
  rewrite ST. pose proof (upto_name n s B N) as UN. unfold rbrace in UN. rewrite UN. f_equal.
  apply refs_fuel_enough; rewrite ?append_length; cbn [String.length]; lia.
Qed.
Lemma refs_sql segs : Forall good_seg segs -> fields_to_replace (sql_of segs) = refs_of segs.
Proof.
  induction 1 as [|s segs G F IH]; [reflexivity|]. unfold sql_of. cbn [map cat]. fold (sql_of segs). destruct s as [t|n]; cbn [seg_text good_seg refs_of flat_map] in *.
  - rewrite refs_text by auto. exact IH.
  - destruct G as [_ [B N]]. rewrite refs_ref by auto. cbn. f_equal. exact IH.
Qed.

(** ** Replacing them one after the other *)
Definition part (done : list (string * string)) (s : seg) : string :=
  match s with Text t => t | Ref n => match assoc n done with Some t => t | None => ("${" ++ n ++ "}")%string end end.
Definition now (done : list (string * string)) (segs : list seg) : string := cat (map (part done) segs).
Lemma skip_plain n v p s : plain p = true -> replace (placeholder n) v (p ++ s)%string = (p ++ replace (placeholder n) v s)%string.
Proof. intros P. unfold placeholder. cbn [append]. apply replace_skip_prefix. unfold plain in P. now apply negb_true_iff in P. Qed.
Lemma skip_other n m v s : n <> m -> plain m = true -> has_char rbrace n = false -> has_char rbrace m = false ->
  replace (placeholder n) v (("${" ++ m ++ "}") ++ s)%string = (("${" ++ m ++ "}") ++ replace (placeholder n) v s)%string.
Proof.
  intros NE P Bn Bm. rewrite !append_assoc. cbn [append]. unfold placeholder at 1. cbn [append].
  rewrite replace_skip; [|discriminate|].
  - f_equal. change (String "{" (m ++ String "}" s)) with (String "{" m ++ String "}" s)%string.
    change (String "{" (m ++ String "}" (replace (placeholder n) v s))) with (String "{" m ++ String "}" (replace (placeholder n) v s))%string.
    replace (String "{" m ++ String "}" s)%string with ((String "{" m ++ "}") ++ s)%string by (now rewrite append_assoc).
    replace (String "{" m ++ String "}" (replace (placeholder n) v s))%string with ((String "{" m ++ "}") ++ replace (placeholder n) v s)%string by (now rewrite append_assoc).
    apply skip_plain. unfold plain in *. cbn [append has_char]. rewrite has_char_app. apply negb_true_iff in P. rewrite P. reflexivity.
  - destruct (strip_prefix (String "$" (String "{" (n ++ "}"))) (String "$" (String "{" (m ++ String "}" s)))) as [r|] eqn:E; auto. exfalso.
    apply strip_prefix_some in E. cbn [append] in E. injection E as E. rewrite append_assoc in E. cbn [append] in E.
    apply (sep_inj "}"%char) in E; [|exact Bm|exact Bn]. destruct E as [E _]. congruence.
Qed.
Lemma replace_now n v done segs : Forall good_seg segs -> assoc n done = None -> plain n = true -> has_char rbrace n = false ->
  (forall m t, assoc m done = Some t -> plain t = true) ->
  replace (placeholder n) v (now done segs) = now ((n, v) :: done) segs.
Proof.
  intros G A P B D. unfold now. induction G as [|s segs Gs G IH]; [reflexivity|]. cbn [map cat]. destruct s as [t|m]; cbn [part good_seg] in *.
  - rewrite skip_plain by auto. now rewrite IH.
  - destruct Gs as [Pm [Bm _]]. cbn [assoc]. destruct (String.eqb_spec m n) as [->|NE].
    + rewrite A. change ("${" ++ n ++ "}")%string with (placeholder n). rewrite replace_head by discriminate. now rewrite IH.
    + destruct (assoc m done) as [t|] eqn:E.
      * rewrite skip_plain by eauto. now rewrite IH.
      * rewrite skip_other by auto. now rewrite IH.
Qed.
Lemma replace_done n v done segs : Forall good_seg segs -> (exists t, assoc n done = Some t) -> plain n = true -> has_char rbrace n = false ->
  (forall m t, assoc m done = Some t -> plain t = true) ->
  replace (placeholder n) v (now done segs) = now done segs.
Proof.
  intros G [t0 A] P B D. unfold now. induction G as [|s segs Gs G IH]; [reflexivity|]. cbn [map cat]. destruct s as [t|m]; cbn [part good_seg] in *.
  - rewrite skip_plain by auto. now rewrite IH.
  - destruct Gs as [Pm [Bm _]]. destruct (assoc m done) as [t|] eqn:E.
    + rewrite skip_plain by eauto. now rewrite IH.
    + rewrite skip_other; auto; [now rewrite IH|]. congruence.
Qed.

(** what [substitute] computes *)
Definition value_of (value : string -> res raw_result) (view n : string) : res raw_result := if String.eqb n "TABLE" then Ok (RText view) else value n.
Lemma substitute_spec value view segs : Forall good_seg segs ->
  (forall n t, In n (refs_of segs) -> value_of value view n = Ok (RText t) -> plain t = true) ->
  forall names done, incl names (refs_of segs) ->
  (forall m t, assoc m done = Some t -> value_of value view m = Ok (RText t) /\ In m (refs_of segs)) ->
  match substitute value view names (now done segs) with
  | Ok t => (forall n, In n names -> exists u, value_of value view n = Ok (RText u))
            /\ exists done', t = strip (now done' segs) /\ (forall m u, assoc m done' = Some u -> value_of value view m = Ok (RText u))
               /\ forall m, (In m names \/ assoc m done <> None) -> assoc m done' <> None
  | Err e => exists n, In n names /\ (value_of value view n = Err e \/ (value_of value view n = Ok RList /\ e = QueryError) \/ (value_of value view n = Ok RNone /\ e = TypeError))
  end.
Proof.
  intros G PV names. induction names as [|n names IH]; intros done I D; cbn [substitute].
  - split; [intros n []|]. exists done. split; [reflexivity|]. split; [intros m u A; now apply D|]. intros m [[]|A]; auto.
  - assert (In n (refs_of segs)) as Rn by (apply I; now left).
    assert (Gn : plain n = true /\ has_char rbrace n = false).
    { unfold refs_of in Rn. apply in_flat_map in Rn. destruct Rn as [s [S X]]. rewrite Forall_forall in G. specialize (G s S). destruct s; [destruct X|]. destruct X as [<-|[]]. destruct G as [G1 [G2 _]]. auto. }
    destruct Gn as [Pn Bn].
    assert (PD : forall m t, assoc m done = Some t -> plain t = true) by (intros m t A; apply D in A; destruct A; eapply PV; eauto).
    assert (Step : forall t, value_of value view n = Ok (RText t) ->
      match substitute value view names (replace (placeholder n) t (now done segs)) with
      | Ok t => (forall n', In n' (n :: names) -> exists u, value_of value view n' = Ok (RText u))
            /\ exists done', t = strip (now done' segs) /\ (forall m u, assoc m done' = Some u -> value_of value view m = Ok (RText u))
               /\ forall m, (In m (n :: names) \/ assoc m done <> None) -> assoc m done' <> None
      | Err e => exists n', In n' (n :: names) /\ (value_of value view n' = Err e \/ (value_of value view n' = Ok RList /\ e = QueryError) \/ (value_of value view n' = Ok RNone /\ e = TypeError))
      end).
    { intros t Vt. assert (exists done1, replace (placeholder n) t (now done segs) = now done1 segs
         /\ (forall m u, assoc m done1 = Some u -> value_of value view m = Ok (RText u) /\ In m (refs_of segs))
         /\ forall m, m = n \/ assoc m done <> None -> assoc m done1 <> None) as [done1 [E [D1 C1]]].
      { destruct (assoc n done) as [t0|] eqn:A.
        - exists done. split; [apply replace_done; eauto|]. split; [auto|]. intros m [->|X]; congruence.
        - exists ((n, t) :: done). split; [apply replace_now; auto|]. split.
          + intros m u. cbn [assoc]. destruct (String.eqb_spec m n) as [->|NE]; [intros X; injection X as <-; auto|apply D].
          + intros m H. cbn [assoc]. destruct (String.eqb_spec m n) as [->|NE]; [discriminate|]. destruct H; congruence. }
      rewrite E. specialize (IH done1 (fun x X => I x (or_intror X)) D1). destruct (substitute value view names (now done1 segs)) as [s|e].
      - destruct IH as [V [done' [-> [A B]]]]. split; [intros n' [<-|X]; [eauto|auto]|]. exists done'. split; [reflexivity|]. split; auto.
        intros m [[<-|X]|X]; apply B; auto; right; apply C1; auto.
      - destruct IH as [n' [X Y]]. exists n'. split; [now right|auto]. }
    unfold value_of in Step at 1. destruct (String.eqb_spec n "TABLE") as [->|NT].
    + apply Step. reflexivity.
    + destruct (value n) as [[t| |]|e] eqn:V; cbn [bind].
      * now apply Step.
      * exists n. split; [now left|]. right. right. unfold value_of. destruct (String.eqb_spec n "TABLE"); [contradiction|auto].
      * exists n. split; [now left|]. right. left. unfold value_of. destruct (String.eqb_spec n "TABLE"); [contradiction|auto].
      * exists n. split; [now left|]. left. unfold value_of. destruct (String.eqb_spec n "TABLE"); [contradiction|auto].
Qed.

(** ** Plain stays plain *)
Lemma plain_app a b : plain (a ++ b)%string = plain a && plain b.
Proof. unfold plain. now rewrite has_char_app, negb_orb. Qed.
Lemma plain_lstrip s : plain s = true -> plain (lstrip s) = true.
Proof. induction s as [|c s IH]; auto. unfold plain in *. cbn [has_char]. rewrite negb_orb. intros H. apply andb_true_iff in H. destruct H as [A B]. cbn [lstrip]. destruct (is_space c); auto. cbn [has_char]. now rewrite negb_orb, A, B. Qed.
Lemma plain_cons c s : plain (String c s) = negb (Ascii.eqb c "$") && plain s.
Proof. unfold plain. cbn [has_char]. apply negb_orb. Qed.
Lemma plain_rstrip s : plain s = true -> plain (rstrip s) = true.
Proof.
  induction s as [|c s IH]; auto. rewrite plain_cons. intros H. apply andb_true_iff in H. destruct H as [A B]. cbn [rstrip]. specialize (IH B).
  destruct (rstrip s) as [|d r]; [destruct (is_space c); auto; now rewrite plain_cons, A|]. now rewrite plain_cons, A, IH.
Qed.
Lemma plain_collapse b s : plain s = true -> plain (collapse_aux b s) = true.
Proof.
  revert b. induction s as [|c s IH]; intros b; auto. rewrite plain_cons. intros H. apply andb_true_iff in H. destruct H as [A B]. cbn [collapse_aux].
  destruct (Ascii.eqb c " "); [destruct b; auto|]; rewrite plain_cons, A; cbn; auto.
Qed.
Lemma collapse_squeezed s : squeezed s (collapse_aux false s)
  /\ exists n s', s = (spaces n ++ s')%string /\ (forall r, s' <> String " " r) /\ squeezed s' (collapse_aux true s).
Proof.
  induction s as [|c s [A (n & s' & E & N & B)]].
  - split; [constructor|]. exists O, "". split; [reflexivity|]. split; [discriminate|constructor].
  - cbn [collapse_aux]. destruct (Ascii.eqb_spec c " ") as [->|NC].
    + split.
      * rewrite E at 1. exact (sq_run n s' _ N B).
      * exists (S n), s'. split; [now rewrite E|]. auto.
    + split; [now constructor|]. exists O, (String c s). split; [reflexivity|]. split; [intros r X; congruence|now constructor].
Qed.
Lemma plain_cat l : Forall (fun s => plain s = true) l -> plain (cat l) = true.
Proof. induction 1; auto. cbn [cat]. now rewrite plain_app, H, IHForall. Qed.

(** ** C39 *)
Section C39.
  Variable get_field : string -> string -> res xfield.
  (** the fields of the project: SQL as above, plain view names, wrappers that add no dollar *)
  Variable fields : xfield -> Prop.
  Hypothesis F_lookup : forall f n g, fields f -> get_field (xf_view f) n = Ok g -> fields g.
  Hypothesis F_plain : forall f, fields f -> plain (xf_view f) = true /\ (forall t, plain t = true -> plain (xf_wrap f t) = true).
  Hypothesis F_segs : forall f s, fields f -> xf_sql f = Some s -> exists segs, s = sql_of segs /\ Forall good_seg segs.
  Notation raw := (raw_sql_query get_field).
  Notation expands := (expands get_field).

  Lemma raw_plain fuel : forall f t, fields f -> raw fuel f = Ok (RText t) -> plain t = true /\ expands f t.
  Proof.
    induction fuel as [|fuel IH]; intros f t Ff H; [discriminate H|]. cbn [raw_sql_query] in H.
    destruct (xf_number_measure f) eqn:NM; [discriminate H|]. destruct (xf_sql f) as [sql|] eqn:S; [|discriminate H].
    destruct (String.eqb sql "") eqn:NE; [discriminate H|]. destruct (contains "{%" sql); [discriminate H|]. apply bind_ok in H. destruct H as [u [U E]]. injection E as <-.
    destruct (F_segs f sql Ff S) as [segs [-> G]]. destruct (F_plain f Ff) as [PV PW].
    set (value := fun n => g <- get_field (xf_view f) n ;; raw fuel g) in *.
    assert (V : forall n t, value_of value (xf_view f) n = Ok (RText t) -> plain t = true /\ expands_seg get_field f (Ref n) t).
    { intros n t. unfold value_of. destruct (String.eqb_spec n "TABLE") as [->|NT].
      - intros X. injection X as <-. split; auto. constructor.
      - unfold value. intros X. apply bind_ok in X. destruct X as [g [Gg X]]. apply IH in X; [|eapply F_lookup; eauto]. destruct X. split; auto. eapply expand_ref; eauto. }
    pose proof (substitute_spec value (xf_view f) segs G (fun n t _ X => proj1 (V n t X)) (refs_of segs) [] (fun x X => X)) as SS.
    assert (D0 : forall m t, @assoc string m [] = Some t -> value_of value (xf_view f) m = Ok (RText t) /\ In m (refs_of segs)) by (intros m t X; discriminate X).
    specialize (SS D0). rewrite refs_sql in U by auto.
    assert (N0 : now [] segs = sql_of segs) by (unfold now, sql_of; f_equal; apply map_ext; intros []; reflexivity). rewrite N0, U in SS.
    destruct SS as [_ [done' [-> [A B]]]].
    assert (P : Forall2 (expands_seg get_field f) segs (map (part done') segs) /\ Forall (fun s => plain s = true) (map (part done') segs)).
    { assert (J : incl segs segs) by apply incl_refl. revert J. generalize segs at 1 3 4 5 as l. induction l as [|s l IHl]; intros J; [split; constructor|].
      destruct IHl as [I1 I2]; [intros x X; apply J; now right|]. cbn [map].
      assert (X : expands_seg get_field f s (part done' s) /\ plain (part done' s) = true).
      { destruct s as [t|n]; cbn [part].
        - split; [constructor|]. rewrite Forall_forall in G. specialize (G (Text t) (J _ (or_introl eq_refl))). exact G.
        - assert (In n (refs_of segs)) as Rn by (apply in_flat_map; exists (Ref n); split; [apply J; now left|now left]).
          destruct (assoc n done') as [t|] eqn:E; [|exfalso; apply (B n); auto]. apply A in E. apply V in E. tauto. }
      destruct X. split; constructor; auto. }
    destruct P as [P1 P2]. split.
    - apply PW. unfold collapse. apply plain_collapse. unfold strip. apply plain_lstrip, plain_rstrip, plain_cat. exact P2.
    - unfold now. econstructor; eauto. apply collapse_squeezed.
  Qed.

  (** Whenever SQL is produced it is the expansion of the field: every reference is replaced by the SQL of the field
      it names, no reference is left (there is no dollar in it), and the text around is unchanged up to runs of
      spaces and the ends. *)
  Theorem C39_expansion : forall fuel f t, fields f -> raw fuel f = Ok (RText t) -> expands f t /\ fields_to_replace t = [].
  Proof.
    intros fuel f t Ff H. destruct (raw_plain fuel f t Ff H) as [P E]. split; auto.
    rewrite <- (append_nil_r t). rewrite refs_text by auto. reflexivity.
  Qed.

  (** A field of the kind that has SQL of its own: not a number measure, with a text without templating, whose
      references all are known and of this kind *)
  Definition sound (f : xfield) : Prop :=
    xf_number_measure f = false /\ exists sql, xf_sql f = Some sql /\ sql <> "" /\ contains "{%" sql = false
    /\ forall n, In n (fields_to_replace sql) -> n <> "TABLE" -> exists g, get_field (xf_view f) n = Ok g.
  Definition next (g f : xfield) : Prop := exists sql n, xf_sql f = Some sql /\ In n (fields_to_replace sql) /\ n <> "TABLE" /\ get_field (xf_view f) n = Ok g.
  Inductive all_sound : xfield -> Prop := AllSound f : sound f -> (forall g, next g f -> all_sound g) -> all_sound f.

  Lemma raw_mono fuel : forall f r, fields f -> raw fuel f = Ok r -> forall fuel', fuel <= fuel' -> raw fuel' f = Ok r.
  Proof.
    induction fuel as [|fuel IH]; intros f r Ff H fuel' L; [discriminate H|]. destruct fuel' as [|fuel']; [lia|]. cbn [raw_sql_query] in *.
    destruct (xf_number_measure f); auto. destruct (xf_sql f) as [sql|] eqn:S; auto. destruct (String.eqb sql ""); auto. destruct (contains "{%" sql); auto.
    apply bind_ok in H. destruct H as [u [U E]]. injection E as <-.
    assert (X : forall names s, substitute (fun n => g <- get_field (xf_view f) n ;; raw fuel g) (xf_view f) names s = Ok u ->
                substitute (fun n => g <- get_field (xf_view f) n ;; raw fuel' g) (xf_view f) names s = Ok u).
    { induction names as [|n names IHn]; intros s; cbn [substitute]; auto. destruct (String.eqb n "TABLE"); auto. intros H. apply bind_ok in H. destruct H as [v [V H]].
      apply bind_ok in V. destruct V as [g [Gg V]]. rewrite Gg. cbn [bind]. rewrite (IH g v) with (fuel' := fuel'); auto; [|eapply F_lookup; eauto|lia]. cbn [bind]. destruct v; auto. }
    rewrite (X _ _ U). reflexivity.
  Qed.

  (** Expansion succeeds, with a large enough stack, exactly for fields whose references are not circular. *)
  Theorem C39_terminates : forall f, fields f ->
    ((exists fuel t, raw fuel f = Ok (RText t)) <-> all_sound f).
  Proof.
    intros f Ff. split.
    - intros [fuel [t H]]. revert f t Ff H. induction fuel as [|fuel IH]; intros f t Ff H; [discriminate H|]. cbn [raw_sql_query] in H.
      destruct (xf_number_measure f) eqn:NM; [discriminate H|]. destruct (xf_sql f) as [sql|] eqn:S; [|discriminate H].
      destruct (String.eqb_spec sql "") as [->|NE]; [discriminate H|]. destruct (contains "{%" sql) eqn:T; [discriminate H|]. apply bind_ok in H. destruct H as [u [U _]].
      assert (X : forall names s, substitute (fun n => g <- get_field (xf_view f) n ;; raw fuel g) (xf_view f) names s = Ok u ->
                  forall n, In n names -> n <> "TABLE" -> exists g t, get_field (xf_view f) n = Ok g /\ raw fuel g = Ok (RText t)).
      { induction names as [|n names IHn]; intros s H m I NT; [destruct I|]. cbn [substitute] in H. destruct (String.eqb_spec n "TABLE") as [->|N].
        - destruct I as [<-|I]; [congruence|]. eapply IHn; eauto.
        - apply bind_ok in H. destruct H as [v [V H]]. destruct v as [t0| |]; try discriminate H. destruct I as [<-|I]; [|eapply IHn; eauto].
          apply bind_ok in V. destruct V as [g [Gg V]]. eauto. }
      specialize (X _ _ U). constructor.
      + split; auto. exists sql. repeat split; auto. intros n I NT. destruct (X n I NT) as [g [t' [A _]]]. eauto.
      + intros g [sql' [n [S' [I [NT Gg]]]]]. rewrite S in S'. injection S' as <-. destruct (X n I NT) as [g' [t' [A B]]]. rewrite A in Gg. injection Gg as ->.
        eapply IH; eauto.
    - intros A. revert Ff. induction A as [f [NM [sql [S [NE [T K]]]]] H IH]; intros Ff.
      assert (X : exists fuel, forall n, In n (fields_to_replace sql) -> n <> "TABLE" -> exists g t, get_field (xf_view f) n = Ok g /\ raw fuel g = Ok (RText t)).
      { assert (Y : forall names, incl names (fields_to_replace sql) -> exists fuel, forall n, In n names -> n <> "TABLE" -> exists g t, get_field (xf_view f) n = Ok g /\ raw fuel g = Ok (RText t)).
        { induction names as [|n names IHn]; intros J; [exists 0; intros n []|]. destruct IHn as [fuel Hf]; [intros x X; apply J; now right|].
          destruct (string_dec n "TABLE") as [->|NT].
          - exists fuel. intros m [<-|I] N; [congruence|auto].
          - destruct (K n (J n (or_introl eq_refl)) NT) as [g Gg]. assert (Nx : next g f) by (exists sql, n; repeat split; auto; apply J; now left).
            destruct (IH g Nx (F_lookup f n g Ff Gg)) as [fuel' [t R]]. exists (Nat.max fuel fuel'). intros m [<-|I] N.
            + exists g, t. split; auto. eapply raw_mono; [eapply F_lookup; eauto|exact R|lia].
            + destruct (Hf m I N) as [g' [t' [A B]]]. exists g', t'. split; auto. eapply raw_mono; [eapply F_lookup; eauto|exact B|lia]. }
        apply Y, incl_refl. }
      destruct X as [fuel X]. exists (Datatypes.S fuel).
      assert (Z : forall names s, incl names (fields_to_replace sql) -> exists u, substitute (fun n => g <- get_field (xf_view f) n ;; raw fuel g) (xf_view f) names s = Ok u).
      { induction names as [|n names IHn]; intros s J; cbn [substitute]; [eauto|]. assert (J' : incl names (fields_to_replace sql)) by (intros x I; apply J; now right).
        destruct (String.eqb_spec n "TABLE") as [->|NT]; [auto|]. destruct (X n (J n (or_introl eq_refl)) NT) as [g [t [A B]]]. rewrite A. cbn [bind]. rewrite B. cbn [bind]. auto. }
      destruct (Z (fields_to_replace sql) sql (incl_refl _)) as [u U]. cbn [raw_sql_query]. rewrite NM, S, T.
      destruct (String.eqb_spec sql ""); [contradiction|]. rewrite U. cbn [bind]. eauto.
  Qed.

  (** A circular reference exhausts any stack. *)
  Corollary C39_cycle : forall f, fields f -> (exists g, Relation_Operators.clos_refl_trans _ (fun a b => next b a) f g /\ Relation_Operators.clos_trans _ (fun a b => next b a) g g) ->
    forall fuel t, raw fuel f <> Ok (RText t).
  Proof.
    intros f Ff [g [R C]] fuel t H. assert (A : all_sound f) by (apply C39_terminates; eauto). clear H fuel t Ff.
    assert (Ag : all_sound g).
    { clear C. revert A. induction R as [a b [sql X]| |a b c R1 IH1 R2 IH2]; intros A; auto. inversion A as [x0 _ N0]; subst; apply N0; exists sql; exact X. }
    clear A R. assert (Acyc : Acc (fun x y => Relation_Operators.clos_trans _ (fun a b => next b a) y x) g).
    { clear C. induction Ag as [g S N IH]. constructor. intros y T. apply Operators_Properties.clos_trans_t1n in T. inversion T as [z N1|z y' N1 T']; subst.
      - now apply IH.
      - specialize (IH z N1). inversion IH as [X]. apply X. now apply Operators_Properties.clos_t1n_trans. }
    revert C. induction Acyc as [g _ IH]. intros C. exact (IH g C Ag C).
  Qed.
End C39.
Print Assumptions C39_expansion.
Print Assumptions C39_terminates.
Print Assumptions C39_cycle.

(** a field that refers to two others, one of which refers to a third *)
Definition plain_field (v n sql : string) : xfield := XField (v ++ "." ++ n) v false (Some sql) (fun t => t) (v ++ "_" ++ n).
Definition orders_fields (view n : string) : res xfield :=
  if String.eqb n "revenue" then Ok (plain_field "orders" "revenue" "${TABLE}.rev - ${discount}")
  else if String.eqb n "discount" then Ok (plain_field "orders" "discount" "${TABLE}.disc")
  else if String.eqb n "loop" then Ok (plain_field "orders" "loop" "1 + ${loop}")
  else Err AccessDenied.
Example expansion_example : raw_sql_query orders_fields 5 (plain_field "orders" "net" "coalesce(${revenue},  ${discount}) * 2")
  = Ok (RText "coalesce(orders.rev - orders.disc, orders.disc) * 2").
Proof. reflexivity. Qed.
Example loop_example : raw_sql_query orders_fields 50 (plain_field "orders" "loop" "1 + ${loop}") = Err RecursionError.
Proof. vm_compute. reflexivity. Qed.
Definition sample (f : xfield) : Prop :=
  f = plain_field "orders" "revenue" "${TABLE}.rev - ${discount}" \/ f = plain_field "orders" "discount" "${TABLE}.disc" \/ f = plain_field "orders" "loop" "1 + ${loop}".
Example hypotheses_example :
  (forall f n g, sample f -> orders_fields (xf_view f) n = Ok g -> sample g)
  /\ (forall f, sample f -> plain (xf_view f) = true /\ (forall t, plain t = true -> plain (xf_wrap f t) = true))
  /\ (forall f s, sample f -> xf_sql f = Some s -> exists segs, s = sql_of segs /\ Forall good_seg segs).
Proof.
  split; [|split].
  - intros f n g _. unfold orders_fields. destruct (String.eqb n "revenue"); [intros H; injection H as <-; now left|].
    destruct (String.eqb n "discount"); [intros H; injection H as <-; now right; left|]. destruct (String.eqb n "loop"); [intros H; injection H as <-; now right; right|discriminate].
  - intros f [->|[->| ->]]; split; auto.
  - intros f s [->|[->| ->]] H; injection H as <-.
    + exists [Ref "TABLE"; Text ".rev - "; Ref "discount"]. split; [reflexivity|]. repeat constructor.
    + exists [Ref "TABLE"; Text ".disc"]. split; [reflexivity|]. repeat constructor.
    + exists [Text "1 + "; Ref "loop"]. split; [reflexivity|]. repeat constructor.
Qed.

(** Text outside references is changed: a run of spaces inside a string literal becomes one space. *)
Theorem C39_spaces_refuted : raw_sql_query orders_fields 5 (plain_field "orders" "flag" "${TABLE}.code = 'A  1'") = Ok (RText "orders.code = 'A 1'").
Proof. reflexivity. Qed.
Print Assumptions C39_spaces_refuted.
(** In the form used for columns of sub queries, ${TABLE} is only replaced before a dot. *)
Theorem C39_alias_table_refuted : substitute_alias orders_fields (plain_field "orders" "n" "count(${TABLE})") ["TABLE"] "count(${TABLE})" = Ok "count(${TABLE})".
Proof. reflexivity. Qed.
Print Assumptions C39_alias_table_refuted.
(** With a dollar in the text, the SQL of one field can form a reference with the text around it. *)
Theorem C39_dollar_refuted : exists get_field f, fields_to_replace "${price}{discount} ${discount}" = ["price"; "discount"]
  /\ xf_sql f = Some "${price}{discount} ${discount}"
  /\ raw_sql_query get_field 5 f = Ok (RText "5 orders.disc orders.disc").
Proof.
  exists (fun _ n => if String.eqb n "price" then Ok (plain_field "orders" "price" "5 $") else Ok (plain_field "orders" "discount" "${TABLE}.disc")).
  exists (plain_field "orders" "x" "${price}{discount} ${discount}"). repeat split; reflexivity.
Qed.
Print Assumptions C39_dollar_refuted.

(** ** The form used for columns of sub queries: the name of the table and its dot go, a reference becomes the alias of its field *)
Inductive aseg := AText (t : string) | ATable | ARef (n : string).
Definition aseg_text (s : aseg) : string := match s with AText t => t | ATable => "${TABLE}." | ARef n => ("${" ++ n ++ "}")%string end.
Definition asql_of (l : list aseg) : string := cat (map aseg_text l).
Definition good_aseg (s : aseg) : Prop :=
  match s with AText t => plain t = true | ATable => True | ARef n => n <> "TABLE" /\ plain n = true /\ has_char rbrace n = false /\ has_char newline n = false end.
Definition arefs (l : list aseg) : list string := flat_map (fun s => match s with ARef n => [n] | ATable => ["TABLE"] | AText _ => [] end) l.
Lemma arefs_sql segs : Forall good_aseg segs -> fields_to_replace (asql_of segs) = arefs segs.
Proof.
  induction 1 as [|s segs G F IH]; [reflexivity|]. unfold asql_of. cbn [map cat]. fold (asql_of segs). destruct s as [t| |n]; cbn [aseg_text good_aseg arefs flat_map] in *.
  - rewrite refs_text by auto. exact IH.
  - change ("${TABLE}." ++ asql_of segs)%string with (("${" ++ "TABLE" ++ "}") ++ ("." ++ asql_of segs))%string. rewrite refs_ref by reflexivity. rewrite refs_text by reflexivity. cbn. f_equal. exact IH.
  - destruct G as [_ [_ [B N]]]. rewrite refs_ref by auto. cbn. f_equal. exact IH.
Qed.
Definition apart (tbl : bool) (done : list (string * string)) (s : aseg) : string :=
  match s with AText t => t | ATable => if tbl then "" else "${TABLE}." | ARef n => match assoc n done with Some t => t | None => ("${" ++ n ++ "}")%string end end.
Definition anow (tbl : bool) (done : list (string * string)) (segs : list aseg) : string := cat (map (apart tbl done) segs).
Lemma skip_table m s : m <> "TABLE" -> plain m = true -> has_char rbrace m = false ->
  replace "${TABLE}." "" (("${" ++ m ++ "}") ++ s)%string = (("${" ++ m ++ "}") ++ replace "${TABLE}." "" s)%string.
Proof.
  intros NE P Bm. rewrite !append_assoc. cbn [append]. rewrite replace_skip; [|discriminate|].
  - f_equal. replace (String "{" (m ++ String "}" s)) with ((String "{" m ++ "}") ++ s)%string by (cbn [append]; now rewrite append_assoc).
    replace (String "{" (m ++ String "}" (replace "${TABLE}." "" s))) with ((String "{" m ++ "}") ++ replace "${TABLE}." "" s)%string by (cbn [append]; now rewrite append_assoc).
    apply replace_skip_prefix. unfold plain in P. cbn [append has_char]. rewrite has_char_app. apply negb_true_iff in P. rewrite P. reflexivity.
  - destruct (strip_prefix "${TABLE}." (String "$" (String "{" (m ++ String "}" s)))) as [r|] eqn:E; auto. exfalso.
    apply strip_prefix_some in E. cbn [append] in E. injection E as E.
    change (String "T" (String "A" (String "B" (String "L" (String "E" (String "}" (String "." r))))))) with ("TABLE" ++ String "}" (String "." r))%string in E.
    apply (sep_inj "}"%char) in E; [|exact Bm|reflexivity]. destruct E as [E _]. congruence.
Qed.
Lemma replace_table tbl done segs : Forall good_aseg segs -> (forall m t, assoc m done = Some t -> plain t = true) ->
  replace "${TABLE}." "" (anow tbl done segs) = anow true done segs.
Proof.
  intros G D. unfold anow. induction G as [|s segs Gs G IH]; [reflexivity|]. cbn [map cat].
  assert (SP : forall p u, plain p = true -> replace "${TABLE}." "" (p ++ u)%string = (p ++ replace "${TABLE}." "" u)%string) by (intros p u P; apply replace_skip_prefix; unfold plain in P; now apply negb_true_iff in P).
  destruct s as [t| |m]; cbn [apart good_aseg] in *.
  - rewrite SP by auto. now rewrite IH.
  - destruct tbl; [cbn [append]; exact IH|]. rewrite replace_head by discriminate. now rewrite IH.
  - destruct Gs as [NT [Pm [Bm _]]]. destruct (assoc m done) as [t|] eqn:E; [rewrite SP by eauto; now rewrite IH|]. rewrite skip_table by auto. now rewrite IH.
Qed.
Lemma replace_anow tbl n v done segs : Forall good_aseg segs -> n <> "TABLE" -> plain n = true -> has_char rbrace n = false ->
  (forall m t, assoc m done = Some t -> plain t = true) -> (forall t, assoc n done = Some t -> t = v) ->
  replace (placeholder n) v (anow tbl done segs) = anow tbl ((n, v) :: done) segs.
Proof.
  intros G NT P B D A. unfold anow. induction G as [|s segs Gs G IH]; [reflexivity|]. cbn [map cat]. destruct s as [t| |m]; cbn [apart good_aseg] in *.
  - rewrite skip_plain by auto. now rewrite IH.
  - destruct tbl; [cbn [append]; exact IH|].
    match goal with |- context [("${TABLE}." ++ ?u)%string] => change ("${TABLE}." ++ u)%string with (("${" ++ "TABLE" ++ "}") ++ ("." ++ u))%string end.
    rewrite skip_other by (auto; reflexivity). rewrite skip_plain by reflexivity. rewrite IH. reflexivity.
  - destruct Gs as [_ [Pm [Bm _]]]. cbn [assoc]. destruct (String.eqb_spec m n) as [->|NE].
    + destruct (assoc n done) as [t|] eqn:E.
      * rewrite skip_plain by eauto. rewrite (A t eq_refl). now rewrite IH.
      * change ("${" ++ n ++ "}")%string with (placeholder n). rewrite replace_head by discriminate. now rewrite IH.
    + destruct (assoc m done) as [t|] eqn:E.
      * rewrite skip_plain by eauto. now rewrite IH.
      * rewrite skip_other by auto. now rewrite IH.
Qed.
Section Alias.
  Variable get_field : string -> string -> res xfield.
  Variable f : xfield.
  Hypothesis plain_alias : forall n g, get_field (xf_view f) n = Ok g -> plain (xf_alias g) = true.
  Definition column (n : string) : option string := match get_field (xf_view f) n with Ok g => if xf_number_measure g then None else Some (xf_alias g) | Err _ => None end.
  Definition as_column (s : aseg) : string := match s with AText t => t | ATable => "" | ARef n => match column n with Some t => t | None => "" end end.
  Lemma column_ok n t : alias_value get_field f n = Ok (RText t) <-> column n = Some t.
  Proof. unfold alias_value, column. destruct (get_field (xf_view f) n) as [g|e]; cbn [bind]; [|split; discriminate]. destruct (xf_number_measure g); [split; discriminate|]. split; intros H; injection H as ->; reflexivity. Qed.
  Lemma alias_run segs : Forall good_aseg segs -> forall names tbl done, incl names (arefs segs) ->
    (forall m t, assoc m done = Some t -> column m = Some t) ->
    (forall n, In n names -> n <> "TABLE" -> exists t, column n = Some t) ->
    (forall n, In (ARef n) segs -> In n names \/ assoc n done <> None) -> (In ATable segs -> In "TABLE" names \/ tbl = true) ->
    substitute_alias get_field f names (anow tbl done segs) = Ok (strip (cat (map as_column segs))).
  Proof.
    intros G. assert (PC : forall n t, column n = Some t -> plain t = true).
    { intros n t. unfold column. destruct (get_field (xf_view f) n) as [g|e] eqn:E; [|discriminate]. destruct (xf_number_measure g); [discriminate|]. intros H. injection H as <-. exact (plain_alias n g E). }
    induction names as [|n names IH]; intros tbl done I D V C T; cbn [substitute_alias].
    - f_equal. f_equal. unfold anow. f_equal. apply map_ext_in. intros [t| |m] J; cbn [apart as_column]; [reflexivity | destruct (T J) as [[]| ->]; reflexivity|].
      destruct (C m J) as [[]|A]. destruct (assoc m done) as [t|] eqn:E; [|congruence]. rewrite (D m t E). reflexivity.
    - destruct (String.eqb_spec n "TABLE") as [->|NT].
      + change (placeholder "TABLE" ++ ".")%string with "${TABLE}.". rewrite replace_table by (auto; intros m t A; exact (PC m t (D m t A))).
        apply IH; auto; [intros x X; apply I; now right | intros x X; apply V; now right|]. intros m J. destruct (C m J) as [[<-|X]|X]; auto.
        exfalso. rewrite Forall_forall in G. destruct (G _ J) as [X _]. now apply X.
      + destruct (V n (or_introl eq_refl) NT) as [t E]. rewrite (proj2 (column_ok n t) E). cbn [bind].
        assert (Gn : plain n = true /\ has_char rbrace n = false).
        { assert (In n (arefs segs)) as R by (apply I; now left). unfold arefs in R. apply in_flat_map in R. destruct R as [s [S X]]. rewrite Forall_forall in G. specialize (G s S).
          destruct s; [destruct X| destruct X as [<-|[]]; congruence|]. destruct X as [<-|[]]. destruct G as [_ [G1 [G2 _]]]. auto. }
        destruct Gn as [Pn Bn]. rewrite replace_anow; auto; [|intros m u A; exact (PC m u (D m u A))|intros u A; apply D in A; congruence].
        apply IH; auto.
        * intros x X. apply I. now right.
        * intros m u. cbn [assoc]. destruct (String.eqb_spec m n) as [->|]; [intros X; injection X as <-; exact E|apply D].
        * intros m X. apply V. now right.
        * intros m J. cbn [assoc]. destruct (String.eqb_spec m n) as [->|NE]; [right; discriminate|]. destruct (C m J) as [[<-|X]|X]; auto; congruence.
        * intros J. destruct (T J) as [[X|X]|X]; auto; congruence.
  Qed.
  (** In text without stray dollars, every ${TABLE}. goes and every reference becomes the alias of its field; the first reference that is
      unknown raises as its lookup does, and one that is a measure of type number is refused with a QueryError *)
  Theorem C39_alias segs : Forall good_aseg segs ->
    ((forall n, In (ARef n) segs -> exists t, column n = Some t) -> substitute_alias get_field f (fields_to_replace (asql_of segs)) (asql_of segs) = Ok (strip (cat (map as_column segs)))) /\
    (forall a n b, segs = (a ++ ARef n :: b)%list -> (forall m, In (ARef m) a -> exists t, column m = Some t) ->
      (forall e, get_field (xf_view f) n = Err e -> substitute_alias get_field f (fields_to_replace (asql_of segs)) (asql_of segs) = Err e) /\
      (forall g, get_field (xf_view f) n = Ok g -> xf_number_measure g = true -> substitute_alias get_field f (fields_to_replace (asql_of segs)) (asql_of segs) = Err QueryError)).
  Proof.
    intros G. rewrite arefs_sql by exact G.
    assert (N0 : asql_of segs = anow false [] segs) by (unfold anow, asql_of; f_equal; apply map_ext; intros []; reflexivity).
    split.
    - intros V. rewrite N0. apply alias_run; auto.
      + apply incl_refl.
      + discriminate.
      + intros n I NT. unfold arefs in I. apply in_flat_map in I. destruct I as [s [S X]]. destruct s as [t| |m]; [destruct X| destruct X as [<-|[]]; congruence|]. destruct X as [<-|[]]. exact (V m S).
      + intros n I. left. unfold arefs. apply in_flat_map. exists (ARef n). split; [exact I|now left].
      + intros I. left. unfold arefs. apply in_flat_map. exists ATable. split; [exact I|now left].
    - intros a n b -> V. unfold arefs at 1 2. rewrite !flat_map_app. fold (arefs a). cbn [flat_map]. cbn [List.app].
      assert (NT : n <> "TABLE"). { rewrite Forall_forall in G. specialize (G (ARef n)). apply G. apply in_elt. }
      assert (R : forall e, alias_value get_field f n = Err e \/ (alias_value get_field f n = Ok RList /\ e = QueryError) -> forall l names s, (forall m, In m names -> m <> "TABLE" -> exists t, column m = Some t) ->
                    substitute_alias get_field f (names ++ n :: l) s = Err e).
      { intros e E l names. induction names as [|m names IH]; intros s H; cbn [List.app substitute_alias].
        - destruct (String.eqb_spec n "TABLE"); [contradiction|]. destruct E as [-> | [-> ->]]; reflexivity.
        - destruct (String.eqb_spec m "TABLE"); [apply IH; intros x X; apply H; now right|]. destruct (H m (or_introl eq_refl)) as [t X]; [assumption|]. rewrite (proj2 (column_ok m t) X). cbn [bind]. apply IH. intros x Y. apply H. now right. }
      assert (HA : forall m, In m (arefs a) -> m <> "TABLE" -> exists t, column m = Some t).
      { intros m I NM. unfold arefs in I. apply in_flat_map in I. destruct I as [s [S X]]. destruct s as [t| |k]; [destruct X| destruct X as [<-|[]]; congruence|]. destruct X as [<-|[]]. exact (V k S). }
      split; [intros e E|intros g E NM]; apply R; try exact HA; [left|right]; unfold alias_value; rewrite E; cbn [bind]; [reflexivity|]. rewrite NM. auto.
  Qed.
End Alias.
Print Assumptions C39_alias.
Example C39_alias_case :
  let f := plain_field "orders" "net" "${TABLE}.rev - ${orders.disc}" in
  let get := fun _ n => if String.eqb n "orders.disc" then Ok (XField "orders.disc" "orders" false (Some "x") (fun s => s) "orders_disc") else Err AccessDenied in
  let segs := [ATable; AText "rev - "; ARef "orders.disc"] in
  Forall good_aseg segs /\ asql_of segs = "${TABLE}.rev - ${orders.disc}" /\ substitute_alias get f (fields_to_replace (asql_of segs)) (asql_of segs) = Ok "rev - orders_disc".
Proof. split; [|split; reflexivity]. repeat constructor; discriminate. Qed.
