(** C40: names round trip. *)
From Coq Require Import Lia.
From Verif Require Import PyBase PyStr PyReplace Core_Model Access_Spec Access_Proofs Names_Model.
Local Open Scope string_scope.
Local Open Scope list_scope.
Local Open Scope nat_scope.

(** Specification: a name is valid when it is not empty and every character is allowed. *)
Fixpoint all_chars (p : ascii -> bool) (s : string) : bool :=
  match s with EmptyString => true | String c r => p c && all_chars p r end.

Definition letters_and_digits : string := "ABCDEFGHIJKLMNOPQRSTUVWXYZabcdefghijklmnopqrstuvwxyz0123456789_".
Definition allowed (c : ascii) : bool := has_char c letters_and_digits.
Lemma allowed_spec c : name_char c = allowed c.
Proof. destruct c as [[] [] [] [] [] [] [] []]; reflexivity. Qed.
Lemma all_chars_ext p q s : (forall c, p c = q c) -> all_chars p s = all_chars q s.
Proof. intros E. induction s as [|c s IH]; cbn [all_chars]; [reflexivity|]. now rewrite E, IH. Qed.
Theorem C40_valid_names s : valid_name s = true <-> s <> "" /\ all_chars allowed s = true.
Proof.
  rewrite <- (all_chars_ext _ _ s allowed_spec).
  assert (P : forall s, name_prefix s = s <-> all_chars name_char s = true).
  { induction s0 as [|c r IH]; simpl; [tauto|]. destruct (name_char c); simpl.
    - rewrite <- IH. split; [intros E; inversion E as [H]; rewrite H; auto|intros ->; auto].
    - split; discriminate. }
  unfold valid_name, name_match. rewrite <- P. destruct (name_prefix s) as [|c r] eqn:E.
  - split; [discriminate|]. intros [N H]. congruence.
  - rewrite String.eqb_eq. split; [|tauto]. intros <-. split; [discriminate|auto].
Qed.
Print Assumptions C40_valid_names.

Lemma valid_no_dot s : valid_name s = true -> has_char dot s = false /\ s <> "".
Proof.
  intros V. apply C40_valid_names in V. destruct V as [N V]. split; auto. clear N.
  induction s as [|c r IH]; simpl in *; auto. apply andb_true_iff in V. destruct V as [V1 V2].
  rewrite IH by auto. rewrite orb_false_r. apply Ascii.eqb_neq. intros ->. discriminate.
Qed.

(** C40: splitting a name built from valid parts returns the parts. *)
Theorem C40_qualified_names_split e v n : valid_name e = true -> valid_name v = true -> valid_name n = true ->
  field_name_parts n = (None, None, n) /\
  field_name_parts (v ++ "." ++ n) = (None, Some v, n) /\
  field_name_parts (e ++ "." ++ v ++ "." ++ n) = (Some e, Some v, n).
Proof.
  intros E V N. apply valid_no_dot in E. apply valid_no_dot in V. apply valid_no_dot in N.
  split; [|split].
  - apply field_name_parts_plain; tauto.
  - apply field_name_parts_qualified; tauto.
  - apply field_name_parts_full; tauto.
Qed.
Print Assumptions C40_qualified_names_split.

(** C40: whatever the text, putting the parts back together gives the text. *)
Definition rebuild (p : option string * option string * string) : string :=
  let '(e, v, n) := p in
  (match e with Some x => x ++ "." | None => "" end ++ match v with Some x => x ++ "." | None => "" end ++ n)%string.
Theorem C40_split_loses_nothing s : rebuild (field_name_parts s) = s.
Proof.
  unfold field_name_parts. pose proof (split_char_join dot s) as J. pose proof (split_char_length dot s) as L.
  destruct (Nat.eqb (count_char dot s) 2) eqn:E2.
  - apply Nat.eqb_eq in E2. rewrite E2 in L.
    destruct (split_char dot s) as [|a [|b [|c [|d l]]]]; simpl in L; try discriminate.
    simpl in J. simpl. rewrite <- J. rewrite !append_assoc. reflexivity.
  - destruct (Nat.eqb (count_char dot s) 1) eqn:E1; [|reflexivity].
    apply Nat.eqb_eq in E1. rewrite E1 in L.
    destruct (split_char dot s) as [|a [|b [|c l]]]; simpl in L; try discriminate.
    simpl in J. simpl. rewrite <- J. rewrite !append_assoc. reflexivity.
Qed.
Print Assumptions C40_split_loses_nothing.

(** The names a field object answers to, stated on its definition. *)
Definition answers_to (f : field_obj) (n : string) : Prop :=
  let nm := lower (fd_name (fo_def f)) in
  let ty := fd_type (fo_def f) in
  match fd_kind (fo_def f) with
  | Measure | Dimension => n = nm
  | DimGroup =>
      match fo_dg f with
      | None => (ty = "time" /\ exists t, In t (fd_timeframes (fo_def f)) /\ n = (nm ++ "_" ++ t)%string) \/
                (ty = "duration" /\ exists i, In i (match fd_intervals (fo_def f) with [] => default_intervals | l => l end) /\
                                    n = (i ++ "s_" ++ nm)%string)
      | Some d => (ty = "time" /\ n = (nm ++ "_" ++ d)%string) \/ (ty = "duration" /\ n = (d ++ "_" ++ nm)%string) \/
                  (ty <> "time" /\ ty <> "duration" /\ n = nm)
      end
  end.
Lemma time_not_duration : "time" <> "duration". Proof. discriminate. Qed.
Lemma equal_core f n : has_char dot n = false -> (fst (equal f n) = true <-> answers_to f n).
Proof.
  intros D. unfold equal. rewrite field_name_parts_plain by auto. unfold answers_to, dimension_group_names, alias, fo_name.
  destruct (fd_kind (fo_def f)) eqn:K.
  - simpl. rewrite String.eqb_eq. split; auto.
  - simpl. rewrite String.eqb_eq. split; auto.
  - destruct (fo_dg f) as [d|].
    + simpl. rewrite String.eqb_eq. destruct (String.eqb (fd_type (fo_def f)) "time") eqn:T; [apply String.eqb_eq in T; rewrite T|apply String.eqb_neq in T;
        destruct (String.eqb (fd_type (fo_def f)) "duration") eqn:U; [apply String.eqb_eq in U; rewrite U|apply String.eqb_neq in U]].
      * split; [auto|]. intros [[_ H]|[[H _]|[H _]]]; auto; [discriminate|congruence].
      * split; [auto|]. intros [[H _]|[[_ H]|[_ [H _]]]]; auto; [discriminate|congruence].
      * split; [auto|]. intros [[H _]|[[H _]|[_ [_ H]]]]; auto; congruence.
    + destruct (String.eqb (fd_type (fo_def f)) "time") eqn:T; [apply String.eqb_eq in T; rewrite T|apply String.eqb_neq in T;
        destruct (String.eqb (fd_type (fo_def f)) "duration") eqn:U; [apply String.eqb_eq in U; rewrite U|apply String.eqb_neq in U]].
      * destruct (mem n _) eqn:M; simpl.
        -- apply mem_In, in_map_iff in M. destruct M as [t [E I]]. split; auto. intros _. left. split; auto. exists t; auto.
        -- apply mem_false in M. split; [discriminate|]. intros [[_ [t [I E]]]|[H _]]; [|discriminate].
           exfalso. apply M. apply in_map_iff. exists t; auto.
      * destruct (mem n _) eqn:M; simpl.
        -- apply mem_In, in_map_iff in M. destruct M as [t [E I]]. split; auto. intros _. right. split; auto. exists t; auto.
        -- apply mem_false in M. split; [discriminate|]. intros [[H _]|[_ [t [I E]]]]; [discriminate|].
           exfalso. apply M. apply in_map_iff. exists t; auto.
      * simpl. split; [discriminate|]. intros [[H _]|[H _]]; congruence.
Qed.

(** C40: equal() accepts exactly the field's names, bare or qualified by its own view. *)
Theorem C40_equal_exact f v n : has_char dot n = false -> has_char dot v = false -> v <> "" ->
  (fst (equal f n) = true <-> answers_to f n) /\
  (fst (equal f (v ++ "." ++ n)) = true <-> v = fo_view f /\ answers_to f n).
Proof.
  intros D V N. split; [apply equal_core; auto|]. rewrite <- equal_core by auto.
  unfold equal. change (v ++ "." ++ n)%string with (v ++ String dot n)%string.
  rewrite field_name_parts_qualified, field_name_parts_plain by auto.
  assert (V0 : String.eqb v "" = false) by (apply String.eqb_neq; auto). rewrite V0. simpl negb. rewrite andb_true_l.
  destruct (String.eqb v (fo_view f)) eqn:E; cbn [negb].
  - apply String.eqb_eq in E. tauto.
  - apply String.eqb_neq in E. simpl. split; [discriminate|tauto].
Qed.
Print Assumptions C40_equal_exact.

(** C40: the identifier of an object is recognised by that object. *)
Theorem C40_id_is_recognised f : valid_name (fo_view f) = true -> has_char dot (alias f) = false ->
  (fd_kind (fo_def f) = DimGroup -> fo_dg f <> None) ->
  fst (equal f (field_id f)) = true /\ fst (equal f (alias f)) = true.
Proof.
  intros V A D. apply valid_no_dot in V. destruct V as [V1 V2].
  assert (T : answers_to f (alias f)).
  { unfold answers_to, alias, fo_name. destruct (fd_kind (fo_def f)) eqn:K; auto.
    destruct (fo_dg f) as [d|]; [|exfalso; apply D; auto].
    destruct (String.eqb (fd_type (fo_def f)) "time") eqn:T; [apply String.eqb_eq in T; auto|apply String.eqb_neq in T].
    destruct (String.eqb (fd_type (fo_def f)) "duration") eqn:U; [apply String.eqb_eq in U; auto|apply String.eqb_neq in U; auto]. }
  destruct (C40_equal_exact f (fo_view f) (alias f)) as [P Q]; auto. split; [|apply P; auto].
  apply Q. auto.
Qed.
Print Assumptions C40_id_is_recognised.

(** C40: matching a timeframe's name gives back exactly that timeframe if and only if the group's
    name followed by an underscore does not occur in it. *)
Theorem C40_timeframe_recovered f n t : fd_type (fo_def f) = "time" -> n = (fo_name f ++ "_" ++ t)%string ->
  (get_dimension_group_name f n = Some t <-> contains (fo_name f ++ "_") t = false).
Proof.
  intros T ->. unfold get_dimension_group_name. rewrite T. simpl.
  assert (N : (fo_name f ++ "_")%string <> "") by (destruct (fo_name f); discriminate).
  replace (fo_name f ++ String "_" t)%string with ((fo_name f ++ "_") ++ t)%string by (rewrite append_assoc; reflexivity).
  rewrite replace_head by auto. simpl. split.
  - intros E. injection E as E'. destruct (contains (fo_name f ++ "_") t) eqn:C; auto.
    pose proof (replace_shorter _ _ N C) as L. rewrite E' in L. lia.
  - intros C. rewrite replace_none; auto.
Qed.
Print Assumptions C40_timeframe_recovered.

(** C40: intervals contain no underscore, so they are always recovered. *)
Theorem C40_interval_recovered f i : fd_type (fo_def f) = "duration" -> has_char "_"%char i = false ->
  get_dimension_group_name f (i ++ "s_" ++ fo_name f) = Some (i ++ "s")%string.
Proof.
  intros T H. unfold get_dimension_group_name. rewrite T.
  replace (i ++ "s_" ++ fo_name f)%string with ((i ++ "s") ++ "_" ++ fo_name f)%string by (rewrite append_assoc; reflexivity).
  rewrite contains_suffix. simpl String.eqb. simpl andb.
  change ("_" ++ fo_name f)%string with (String "_" (fo_name f)).
  rewrite replace_skip_prefix by (rewrite has_char_app, H; reflexivity).
  rewrite <- (append_nil_r (String "_" (fo_name f))) at 2. rewrite replace_head by discriminate.
  rewrite replace_none by reflexivity. simpl. rewrite append_nil_r. reflexivity.
Qed.
Print Assumptions C40_interval_recovered.

(** Finding: a group called week with the timeframe week_of_year answers to the name but yields the
    timeframe of_year. *)
Definition week_group : field_obj := FieldObj "orders" (FieldDef "week" DimGroup "time" ["week_of_year"] [] false [] false []) None false.
Theorem C40_timeframe_containing_the_name_refuted :
  exists f n t, answers_to f n /\ n = (fo_name f ++ "_" ++ t)%string /\ In t (fd_timeframes (fo_def f)) /\
    equal f n = (true, FieldObj (fo_view f) (fo_def f) (Some "of_year") (fo_hidden f)) /\ t <> "of_year".
Proof.
  exists week_group, "week_week_of_year", "week_of_year". split; [|split; [|split; [|split]]]; try reflexivity; try discriminate.
  - left. split; auto. exists "week_of_year". split; [left; auto|reflexivity].
  - left; auto.
Qed.
Print Assumptions C40_timeframe_containing_the_name_refuted.

(** Finding: column aliases of different fields may coincide. *)
Theorem C40_column_alias_not_unique_refuted : exists f g,
  field_id f <> field_id g /\ alias_with_view f = alias_with_view g /\
  valid_name (fo_view f) = true /\ valid_name (fo_view g) = true /\ valid_name (alias f) = true /\ valid_name (alias g) = true.
Proof.
  exists (FieldObj "order" (FieldDef "lines_id" Dimension "string" [] [] false [] false []) None false),
         (FieldObj "order_lines" (FieldDef "id" Dimension "string" [] [] false [] false []) None false).
  repeat split; try discriminate; reflexivity.
Qed.
Print Assumptions C40_column_alias_not_unique_refuted.

(** C40: identifiers of valid names determine view and alias. *)
Theorem C40_id_determines_view_and_alias f g : valid_name (fo_view f) = true -> valid_name (fo_view g) = true ->
  field_id f = field_id g -> fo_view f = fo_view g /\ alias f = alias g.
Proof.
  intros V W E. apply valid_no_dot in V. apply valid_no_dot in W. unfold field_id in E.
  apply (sep_inj dot) in E; tauto.
Qed.
Print Assumptions C40_id_determines_view_and_alias.

(** C40: deduplication keeps one object per identifier, the first, in order of appearance. *)
Theorem C40_deduplicate_fields l :
  NoDup (map field_id (deduplicate_fields l)) /\
  (forall f, In f (deduplicate_fields l) -> In f l) /\
  (forall f, In f l -> exists g, In g (deduplicate_fields l) /\ field_id g = field_id f) /\
  (forall a f b, l = a ++ f :: b -> ~ In (field_id f) (map field_id a) -> In f (deduplicate_fields l)).
Proof.
  unfold deduplicate_fields, dedup_by. split; [apply dedup_by_aux_NoDup|]. split; [|split].
  - intros f I. apply dedup_by_aux_In in I. tauto.
  - intros f I. assert (K : In (field_id f) (map field_id (dedup_by_aux field_id [] l))).
    { apply dedup_by_aux_keys. split; [apply in_map; auto|auto]. }
    apply in_map_iff in K. destruct K as [g [E K]]. eauto.
  - assert (G : forall a seen f b, ~ In (field_id f) (map field_id a) -> ~ In (field_id f) seen -> In f (dedup_by_aux field_id seen (a ++ f :: b))).
    { induction a as [|x a IH]; intros seen f b N S; simpl.
      - destruct (mem (field_id f) seen) eqn:M; [apply mem_In in M; tauto|left; auto].
      - simpl in N. destruct (mem (field_id x) seen); [apply IH; tauto|]. right. apply IH; [tauto|]. simpl. tauto. }
    intros a f b -> N. apply G; auto.
Qed.
Print Assumptions C40_deduplicate_fields.

Definition created : field_obj := FieldObj "orders" (FieldDef "Created" DimGroup "time" ["raw"; "day"] [] false [] false []) None false.
Example C40_case :
  answers_to created "created_day" /\ ~ answers_to created "created_week" /\
  equal created "orders.created_day" = (true, FieldObj "orders" (fo_def created) (Some "day") false) /\
  fst (equal created "customers.created_day") = false /\
  field_id (snd (equal created "created_day")) = "orders.created_day" /\
  map field_id (deduplicate_fields [snd (equal created "created_day"); created; snd (equal created "created_day")]) = ["orders.created_day"; "orders.created_None"].
Proof.
  split; [left; split; auto; exists "day"; split; [right; left; auto|reflexivity]|].
  split; [intros [[_ [t [[<-|[<-|[]]] E]]]|[H _]]; discriminate|]. repeat split; reflexivity.
Qed.
