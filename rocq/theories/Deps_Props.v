(** Specification and property theorems: C77, what a field depends on. *)
From Coq Require Import List String Ascii Bool Relations Lia.
From Verif Require Import PyBase PyList PyStr PyRefs Deps_Model.
Import ListNotations.
Local Open Scope string_scope.
Local Open Scope list_scope.

(** ** Specification *)
(** The texts a field is computed by: its sql, or the two ends of a duration *)
Definition texts (f : dfield) : list string :=
  match d_sql f, d_sides f with Some s, _ => [s] | None, Some (a, b) => [a; b] | None, None => [] end.
(** Only durations have two ends, and then no sql *)
Definition shaped (f : dfield) : Prop :=
  match d_sides f with None => True | Some (a, b) => d_type f = "duration" /\ d_sql f = None /\ a <> "" /\ b <> "" end.
Section Spec.
  Variable get_field : string -> string -> res dfield.
  Definition mentions (f : dfield) (t : string) : Prop := t <> "TABLE" /\ exists s, In s (texts f) /\ In t (fields_to_replace s).
  Definition refers (f g : dfield) : Prop := exists t, mentions f t /\ get_field (d_view f) t = Ok g.
  (** f is computed from g: directly, or through fields of type number *)
  Inductive part_of : dfield -> dfield -> Prop :=
  | part_direct f g : refers f g -> d_type g <> "number" -> part_of f g
  | part_through f h g : refers f h -> d_type h = "number" -> part_of h g -> part_of f g.
  (** a reference that names nothing the user may see *)
  Inductive lost : dfield -> string -> Prop :=
  | lost_here f t : mentions f t -> get_field (d_view f) t = Err AccessDenied -> lost f t
  | lost_through f h t : refers f h -> d_type h = "number" -> lost h t -> lost f t.
  Definition depends : dfield -> dfield -> Prop := clos_trans dfield refers.
End Spec.

Lemma ok_inj {A} (a b : A) : Ok a = Ok b -> a = b.
Proof. intros E. inversion E. reflexivity. Qed.
Lemma dedup_In l x : In x (dedup l) <-> In x l.
Proof.
  unfold dedup, dedup_by. pose proof (dedup_by_aux_keys (fun s : string => s) [] l x) as H. rewrite !map_id in H.
  rewrite H. simpl. tauto.
Qed.
Lemma dedup_NoDup l : NoDup (dedup l).
Proof. pose proof (dedup_by_aux_NoDup (fun x : string => x) [] l) as K. rewrite map_id in K. exact K. Qed.
Section C77.
  Variable get_field : string -> string -> res dfield.
  Notation refers := (refers get_field).
  Notation part_of := (part_of get_field).
  Notation lost := (lost get_field).
  (** The project: every field has the shape above, and no field of type number has template marks *)
  Hypothesis shapes : forall v t g, get_field v t = Ok g -> shaped g.
  Hypothesis untemplated : forall v t g, get_field v t = Ok g -> d_type g = "number" -> templated g = false.

  Lemma number_texts g : shaped g -> d_type g = "number" -> texts g = match d_sql g with Some s => [s] | None => [] end.
  Proof.
    unfold shaped, texts. intros S N. destruct (d_sql g); [reflexivity|]. destruct (d_sides g) as [[a b]|]; [|reflexivity].
    destruct S as [D _]. rewrite N in D. discriminate.
  Qed.
  (** References of some texts in a view *)
  Definition says (fuel : nat) (view : string) (ss : list string) (l : list ref) : Prop :=
    forall f, d_view f = view -> texts f = ss -> (forall g, In (inr g) l <-> part_of f g) /\ (forall t, In (inl t) l <-> lost f t).
  Lemma sql_says fuel : forall view sql l, referenced_fields get_field fuel view sql = Ok l -> says fuel view (match sql with Some s => [s] | None => [] end) l.
  Proof.
    induction fuel as [|fuel IH]; intros view sql l E; [discriminate|]. cbn [referenced_fields] in E.
    destruct sql as [s|].
    2: { apply ok_inj in E. subst l. intros f _ T.
         assert (NM : forall t, ~ mentions f t) by (intros t [_ [x [I _]]]; rewrite T in I; destruct I).
         split; intros x; (split; [intros []|]); intros P; inversion P; subst.
         - destruct H as [t [M _]]. exact (NM t M).
         - destruct H as [t [M _]]. exact (NM t M).
         - exact (NM _ H).
         - destruct H as [t [M _]]. exact (NM t M). }
    intros f V T. subst view.
    assert (MT : forall t, mentions f t <-> t <> "TABLE" /\ In t (fields_to_replace s)).
    { intros t. unfold mentions. rewrite T. split; intros [A B]; (split; [exact A|]).
      - destruct B as [x [[<-|[]] B]]. exact B.
      - exists s. split; [left; reflexivity|exact B]. }
    pose proof (concatM_ok_In _ _ _ E) as IN. cbv beta in IN.
    assert (NUM : forall t h, get_field (d_view f) t = Ok h -> d_type h = "number" -> forall zs, referenced_fields get_field fuel (d_view h) (d_sql h) = Ok zs ->
      (forall g, In (inr g) zs <-> part_of h g) /\ (forall u, In (inl u) zs <-> lost h u)).
    { intros t h G N zs Z. apply (IH _ _ _ Z h eq_refl). apply number_texts; [eapply shapes; eauto|exact N]. }
    assert (ALL := concatM_ok_all _ _ _ E). cbv beta in ALL.
    split; intros x; rewrite IN; split.
    - intros [t [zs [I [Z IZ]]]]. destruct (String.eqb_spec t "TABLE"); [apply ok_inj in Z; subst zs; destruct IZ|].
      destruct (get_field (d_view f) t) as [h|e] eqn:G.
      + destruct (String.eqb_spec (d_type h) "number") as [N|N].
        * rewrite (untemplated _ _ _ G N) in Z. apply (part_through _ f h x); [exists t; split; [apply MT; auto|exact G]|exact N|].
          apply (NUM t h G N zs Z). exact IZ.
        * apply ok_inj in Z. subst zs. destruct IZ as [EQ|[]]. inversion EQ. subst h. apply part_direct; [exists t; split; [apply MT; auto|exact G]|exact N].
      + destruct e; try discriminate. apply ok_inj in Z. subst zs. destruct IZ as [EQ|[]]. discriminate.
    - intros P. inversion P as [f' g' [t [M G]] N|f' h g' [t [M G]] N Q]; subst.
      + apply MT in M. destruct M as [NT I]. exists t, [inr x]. split; [exact I|]. split; [|left; reflexivity].
        destruct (String.eqb_spec t "TABLE"); [contradiction|]. rewrite G. destruct (String.eqb_spec (d_type x) "number"); [contradiction|reflexivity].
      + apply MT in M. destruct M as [NT I]. destruct (ALL t I) as [zs Z]. exists t, zs. split; [exact I|]. split; [exact Z|].
        destruct (String.eqb_spec t "TABLE"); [contradiction|]. rewrite G in Z. rewrite N in Z. cbn [String.eqb] in Z. change (String.eqb "number" "number") with true in Z. cbv iota in Z. rewrite (untemplated _ _ _ G N) in Z.
        apply (NUM t h G N zs Z). exact Q.
    - intros [t [zs [I [Z IZ]]]]. destruct (String.eqb_spec t "TABLE"); [apply ok_inj in Z; subst zs; destruct IZ|].
      destruct (get_field (d_view f) t) as [h|e] eqn:G.
      + destruct (String.eqb_spec (d_type h) "number") as [N|N].
        * rewrite (untemplated _ _ _ G N) in Z. apply (lost_through _ f h x); [exists t; split; [apply MT; auto|exact G]|exact N|].
          apply (NUM t h G N zs Z). exact IZ.
        * apply ok_inj in Z. subst zs. destruct IZ as [EQ|[]]. discriminate.
      + destruct e; try discriminate. apply ok_inj in Z. subst zs. destruct IZ as [EQ|[]]. inversion EQ. subst t. apply lost_here; [apply MT; auto|exact G].
    - intros P. inversion P as [f' t' M G|f' h t' [t [M G]] N Q]; subst.
      + apply MT in M. destruct M as [NT I]. exists x, [inl x]. split; [exact I|]. split; [|left; reflexivity].
        destruct (String.eqb_spec x "TABLE"); [contradiction|]. rewrite G. reflexivity.
      + apply MT in M. destruct M as [NT I]. destruct (ALL t I) as [zs Z]. exists t, zs. split; [exact I|]. split; [exact Z|].
        destruct (String.eqb_spec t "TABLE"); [contradiction|]. rewrite G in Z. rewrite N in Z. change (String.eqb "number" "number") with true in Z. cbv iota in Z. rewrite (untemplated _ _ _ G N) in Z.
        apply (NUM t h G N zs Z). exact Q.
  Qed.

  (** The two ends of a duration *)
  Definition side (f : dfield) (s : string) : dfield := DField (d_view f) (d_name f) (d_type f) (d_measure f) (Some s) None None None None.
  Lemma sides_split f a b : texts f = [a; b] ->
    (forall g, part_of f g <-> part_of (side f a) g \/ part_of (side f b) g) /\ (forall t, lost f t <-> lost (side f a) t \/ lost (side f b) t).
  Proof.
    intros T.
    assert (M : forall t, mentions f t <-> mentions (side f a) t \/ mentions (side f b) t).
    { intros t. unfold mentions. rewrite T. cbn. split.
      - intros [N [s [[<-|[<-|[]]] I]]]; [left|right]; (split; [exact N|]); eexists; (split; [left; reflexivity|exact I]).
      - intros [[N [s [[<-|[]] I]]]|[N [s [[<-|[]] I]]]]; (split; [exact N|]); eexists; (split; [|exact I]); auto. }
    assert (R : forall g, refers f g <-> refers (side f a) g \/ refers (side f b) g).
    { intros g. split.
      - intros [t [X G]]. apply M in X. destruct X; [left|right]; exists t; auto.
      - intros [[t [X G]]|[t [X G]]]; exists t; (split; [apply M; auto|exact G]). }
    split; intros x; split.
    - intros P. inversion P as [f' g' X N|f' h g' X N Q]; subst; apply R in X; destruct X; [left; apply part_direct|right; apply part_direct|left; eapply part_through|right; eapply part_through]; eassumption.
    - intros [P|P]; inversion P as [f' g' X N|f' h g' X N Q]; subst; [apply part_direct|eapply part_through|apply part_direct|eapply part_through]; eauto; apply R; auto.
    - intros P. inversion P as [f' t' X G|f' h t' X N Q]; subst.
      + apply M in X. destruct X; [left|right]; apply lost_here; auto.
      + apply R in X. destruct X; [left|right]; eapply lost_through; eauto.
    - intros [P|P]; inversion P as [f' t' X G|f' h t' X N Q]; subst; [apply lost_here|eapply lost_through|apply lost_here|eapply lost_through]; eauto; first [apply M; auto|apply R; auto].
  Qed.
  (** What a field is computed from is found exactly, at any depth, whatever the order of the references. *)
  Theorem C77_parts : forall fuel f l, shaped f -> d_type f <> "cumulative" -> get_referenced get_field fuel f = Ok (Some l) ->
    (forall g, In (inr g) l <-> part_of f g) /\ (forall t, In (inl t) l <-> lost f t).
  Proof.
    intros fuel f l S NC E. unfold get_referenced in E. destruct (templated f); [discriminate|].
    destruct (String.eqb_spec (d_type f) "cumulative"); [contradiction|].
    unfold shaped in S. destruct (d_sides f) as [[a b]|] eqn:D.
    - destruct S as [TD [NS _]]. rewrite TD in E. change (String.eqb "duration" "duration") with true in E. cbv iota in E.
      apply bind_ok in E. destruct E as [x [X E]]. apply bind_ok in E. destruct E as [y [Y E]]. assert (EL : l = x ++ y) by congruence. subst l.
      destruct (sql_says fuel _ _ _ X (side f a) eq_refl eq_refl) as [X1 X2]. destruct (sql_says fuel _ _ _ Y (side f b) eq_refl eq_refl) as [Y1 Y2].
      assert (T : texts f = [a; b]) by (unfold texts; rewrite NS, D; reflexivity). destruct (sides_split f a b T) as [P1 P2].
      split; intros z; rewrite in_app_iff; [rewrite P1, X1, Y1|rewrite P2, X2, Y2]; reflexivity.
    - apply bind_ok in E. destruct E as [x [X E]]. assert (EL : l = x) by congruence. subst l.
      apply (sql_says fuel _ _ _ X f eq_refl). unfold texts. rewrite D. destruct (d_sql f); reflexivity.
  Qed.
  (** to_dict of a metric of type number lists the ids of the fields it is computed from, each once. *)
  Theorem C77_listed : forall fuel f l, shaped f -> d_type f <> "cumulative" -> listed get_field fuel f = Ok (Some l) ->
    NoDup l /\ forall x, In x l <-> exists g, part_of f g /\ x = id g.
  Proof.
    intros fuel f l S NC E. unfold listed in E. apply bind_ok in E. destruct E as [[r|] [R E]]; [|discriminate].
    assert (EL : l = dedup (flat_map (fun x : ref => match x with inl _ => [] | inr g => [id g] end) r)) by congruence. subst l.
    destruct (C77_parts fuel f r S NC R) as [P _]. split; [apply dedup_NoDup|]. intros x. rewrite dedup_In, in_flat_map. split.
    - intros [[u|g] [I X]]; [destruct X|]. destruct X as [<-|[]]. exists g. split; [apply P; exact I|reflexivity].
    - intros [g [Q ->]]. exists (inr g). split; [apply P; exact Q|left; reflexivity].
  Qed.

  (** ** Cumulative metrics *)
  (** The fields of the project and the field asked about *)
  Definition known (f0 f : dfield) : Prop := f = f0 \/ exists v t, get_field v t = Ok f.
  Lemma refers_known f0 f g : refers f g -> known f0 g.
  Proof. intros [t [_ G]]. right. eauto. Qed.
  (** Only metrics of type number refer to measures *)
  Definition layered (f0 : dfield) : Prop := forall f g, known f0 f -> refers f g -> d_type f <> "number" \/ d_measure f = false -> d_measure g = false.
  Lemma own_referenced fuel f : shaped f -> forall l, referenced_fields get_field fuel (d_view f) (d_sql f) = Ok l -> (d_sql f = None -> d_sides f = None) ->
    (forall g, In (inr g) l <-> part_of f g) /\ (forall t, In (inl t) l <-> lost f t).
  Proof.
    intros S l E D. apply (sql_says fuel _ _ _ E f eq_refl). unfold texts. destruct (d_sql f); [reflexivity|]. rewrite D; reflexivity.
  Qed.
  Lemma dims_only f0 : layered f0 -> forall f g, known f0 f -> depends get_field f g -> d_type f <> "number" \/ d_measure f = false -> d_measure g = false.
  Proof.
    intros LY f g K C. apply clos_trans_t1n in C. induction C as [f g R|f h g R C IH]; intros N; [exact (LY f g K R N)|].
    apply IH; [eapply refers_known; eauto|]. right. exact (LY f h K R N).
  Qed.
  Theorem C77_cumulative : forall fuel f b, layered f -> (forall v t g, get_field v t = Ok g -> d_type g = "cumulative" -> d_measure g = true) ->
    shaped f -> d_sides f = None -> is_cumulative get_field fuel f = Ok b ->
    (b = true <-> d_type f = "cumulative" \/ exists g, depends get_field f g /\ d_type g = "cumulative").
  Proof.
    intros fuel f b LY CM S NS E.
    assert (MEAS : forall f g, depends get_field f g -> d_type g = "cumulative" -> d_measure g = true).
    { intros x g C T. apply clos_trans_tn1 in C. destruct C as [g [t [_ G]]|h g [t [_ G]] _]; eapply CM; eauto. }
    assert (PD : forall f g, part_of f g -> depends get_field f g).
    { induction 1; [apply t_step; assumption|]. eapply t_trans; [apply t_step; eassumption|assumption]. }
    assert (DP : forall f g, depends get_field f g -> d_type g = "cumulative" -> part_of f g).
    { intros x g C T. pose proof (MEAS x g C T) as MG. apply clos_trans_t1n in C. induction C as [x g R|x h g R C IH].
      - apply part_direct; [exact R|]. rewrite T. discriminate.
      - destruct (String.eqb_spec (d_type h) "number") as [N|N].
        + eapply part_through; eauto.
        + apply clos_t1n_trans in C. rewrite (dims_only f LY h g (refers_known f x h R) C (or_introl N)) in MG. discriminate. }
    unfold is_cumulative in E. destruct (d_sql f) as [s|] eqn:D.
    - apply bind_ok in E. destruct E as [l [L E]]. assert (EB : b = String.eqb (d_type f) "cumulative" || existsb cumulative_ref l) by congruence. subst b.
      rewrite <- D in L. assert (DS : d_sql f = None -> d_sides f = None) by (rewrite D; discriminate). destruct (own_referenced fuel f S l L DS) as [P _].
      rewrite orb_true_iff, existsb_exists. split.
      + intros [X|[[t|g] [I C]]]; [left; apply String.eqb_eq; exact X|discriminate|]. right. exists g. split; [apply PD, P, I|]. apply String.eqb_eq. exact C.
      + intros [->|[g [C T]]]; [left; reflexivity|]. right. exists (inr g). split; [apply P, DP; assumption|]. cbn. rewrite T. reflexivity.
    - assert (EB : b = String.eqb (d_type f) "cumulative") by congruence. subst b. split.
      + intros X. left. apply String.eqb_eq. exact X.
      + intros [->|[g [C T]]]; [reflexivity|]. apply clos_trans_t1n in C.
        assert (NM : forall t, ~ mentions f t) by (intros t [_ [x [I _]]]; unfold texts in I; rewrite D, NS in I; destruct I).
        exfalso. destruct C as [? [t [M _]]|? ? [t [M _]] _]; exact (NM t M).
  Qed.

  (** ** Merged results *)
  Lemma several_spec l : several l = true <-> exists a b, In a l /\ In b l /\ a <> b.
  Proof.
    assert (EQ : forall x y : option string, (match x, y with None, None => true | Some a, Some b => String.eqb a b | _, _ => false end) = true <-> x = y).
    { intros [x|] [y|]; split; intros H; try discriminate; try reflexivity; [apply String.eqb_eq in H; subst; reflexivity|inversion H; apply String.eqb_refl]. }
    destruct l as [|x l]; cbn [several]; [split; [discriminate|intros [a [b [[] _]]]]|]. rewrite existsb_exists. split.
    - intros [y [I N]]. exists x, y. split; [left; reflexivity|]. split; [right; exact I|]. intros X. apply EQ in X. rewrite X in N. discriminate.
    - intros [a [b [A [B N]]]]. assert (NE : exists y, In y l /\ x <> y).
      { destruct A as [<-|A]; destruct B as [<-|B]; [contradiction| | |].
        - exists b. auto.
        - exists a. split; [exact A|congruence].
        - assert (DEC : x = a \/ x <> a).
          { destruct (match x, a with None, None => true | Some u, Some v => String.eqb u v | _, _ => false end) eqn:Z; [left; apply EQ; exact Z|right; intros W; apply EQ in W; congruence]. }
          destruct DEC as [->|W]; [exists b|exists a]; auto. }
      destruct NE as [y [I W]]. exists y. split; [exact I|]. apply negb_true_iff. apply not_true_is_false. intros Z. apply EQ in Z. contradiction.
  Qed.
  (** A field whose definition says whether it is a merged result is what it says; any other field that is no metric of type number
      is none. *)
  Theorem C77_merged_said : forall fuel f, d_flag f <> None \/ d_type f <> "number" \/ d_measure f = false ->
    is_merged_result get_field fuel f = Ok (match d_flag f with Some c => c | None => false end).
  Proof.
    intros fuel f H. unfold is_merged_result. destruct (d_flag f) as [c|]; [reflexivity|]. destruct (String.eqb_spec (d_type f) "number") as [E|_]; [|reflexivity]. destruct (d_measure f); [|reflexivity].
    destruct H as [H|[H|H]]; congruence.
  Qed.
  (** A metric of type number is a merged result exactly when two of the measures it is computed from, cumulative ones
      apart, have different dates. *)
  Theorem C77_merged : forall fuel f b, shaped f -> d_sides f = None -> d_type f = "number" -> d_measure f = true -> d_flag f = None -> is_merged_result get_field fuel f = Ok b ->
    (b = true <-> exists g h, (part_of f g /\ d_measure g = true /\ d_type g <> "cumulative") /\ (part_of f h /\ d_measure h = true /\ d_type h <> "cumulative") /\ d_date g <> d_date h).
  Proof.
    intros fuel f b S NS N M FL E. unfold is_merged_result in E. rewrite FL, N, M in E. change (String.eqb "number" "number" && true) with true in E. cbv iota in E.
    apply bind_ok in E. destruct E as [l [L E]]. assert (EB : b = several (flat_map dated l)) by congruence. subst b.
    destruct (own_referenced fuel f S l L (fun _ => NS)) as [P _].
    assert (DT : forall a, In a (flat_map dated l) <-> exists g, part_of f g /\ d_measure g = true /\ d_type g <> "cumulative" /\ d_date g = a).
    { intros a. rewrite in_flat_map. split.
      - intros [[t|g] [I X]]; [destruct X|]. cbn [dated] in X. destruct (d_measure g) eqn:MG; [|destruct X]. destruct (String.eqb_spec (d_type g) "cumulative"); [destruct X|]. destruct X as [<-|[]].
        exists g. split; [apply P; exact I|auto].
      - intros [g [Q [MG [NC <-]]]]. exists (inr g). split; [apply P; exact Q|]. cbn [dated]. rewrite MG. destruct (String.eqb_spec (d_type g) "cumulative"); [contradiction|]. left. reflexivity. }
    rewrite several_spec. split.
    - intros [a [c [A [C W]]]]. apply DT in A. apply DT in C. destruct A as [g [G1 [G2 [G3 G4]]]]. destruct C as [h [H1 [H2 [H3 H4]]]]. exists g, h. subst a c. auto.
    - intros [g [h [[G1 [G2 G3]] [[H1 [H2 H3]] W]]]]. exists (d_date g), (d_date h). split; [apply DT; exists g; auto|]. split; [apply DT; exists h; auto|exact W].
  Qed.

  (** A metric of type number can no longer be joined with other views exactly when the dates of two of its measures
      are in views with different join graphs. *)
  Definition on_view (g : dfield) (v : string) : Prop := exists d, d_date g = Some d /\ d <> "" /\ date_view d = Ok v.
  Lemma same_set_spec a b : same_set a b = true <-> forall x, In x a <-> In x b.
  Proof.
    unfold same_set. rewrite andb_true_iff, !forallb_forall. split.
    - intros [A B] x. split; intros I; [apply mem_In, A, I|apply mem_In, B, I].
    - intros H. split; intros x I; apply mem_In; apply H; exact I.
  Qed.
  Theorem C77_loses : forall hashes fuel f b, shaped f -> d_sides f = None -> d_type f = "number" -> d_measure f = true -> d_flag f = None -> loses_join_ability get_field hashes fuel f = Ok b ->
    (b = true <-> exists g h v w, (part_of f g /\ d_measure g = true /\ d_type g <> "cumulative" /\ on_view g v) /\ (part_of f h /\ d_measure h = true /\ d_type h <> "cumulative" /\ on_view h w)
                    /\ ~ (forall x, In x (hashes v) <-> In x (hashes w))).
  Proof.
    intros hashes fuel f b S NS N M FL E. unfold loses_join_ability in E. rewrite FL, N, M in E. change (String.eqb "number" "number" && true) with true in E. cbv iota in E.
    apply bind_ok in E. destruct E as [l [L E]]. apply bind_ok in E. destruct E as [hs [H E]]. apply ok_inj in E.
    destruct (own_referenced fuel f S l L (fun _ => NS)) as [P _].
    assert (HS : forall s, In s hs <-> exists g v, part_of f g /\ d_measure g = true /\ d_type g <> "cumulative" /\ on_view g v /\ s = hashes v).
    { assert (DT : forall d, In d (flat_map (fun d => match d with Some d => if String.eqb d "" then [] else [d] | None => [] end) (flat_map dated l)) <-> exists g, part_of f g /\ d_measure g = true /\ d_type g <> "cumulative" /\ d_date g = Some d /\ d <> "").
      { intros d. rewrite in_flat_map. split.
        - intros [o [I X]]. destruct o as [x|]; [|destruct X]. destruct (String.eqb_spec x ""); [destruct X|]. destruct X as [<-|[]].
          apply in_flat_map in I. destruct I as [[t|g] [I X]]; [destruct X|]. cbn [dated] in X. destruct (d_measure g) eqn:MG; [|destruct X]. destruct (String.eqb_spec (d_type g) "cumulative"); [destruct X|]. destruct X as [X|[]].
          exists g. repeat split; auto. apply P. exact I.
        - intros [g [Q [MG [NC [D NE]]]]]. exists (Some d). split; [|destruct (String.eqb_spec d ""); [contradiction|left; reflexivity]].
          apply in_flat_map. exists (inr g). split; [apply P; exact Q|]. cbn [dated]. rewrite MG. destruct (String.eqb_spec (d_type g) "cumulative"); [contradiction|]. left. exact D. }
      intros s. apply mapM_ok in H. split.
      - intros I. assert (X : exists d, In d (flat_map (fun d => match d with Some d => if String.eqb d "" then [] else [d] | None => [] end) (flat_map dated l)) /\ (v <- date_view d ;; Ok (hashes v)) = Ok s).
        { clear DT E. induction H as [|d s' ds hs' A F IH]; [destruct I|]. destruct I as [<-|I]; [exists d; split; [left; reflexivity|exact A]|]. destruct (IH I) as [d' [J B]]. exists d'. split; [right; exact J|exact B]. }
        destruct X as [d [I1 B]]. apply DT in I1. destruct I1 as [g [Q [MG [NC [D NE]]]]]. apply bind_ok in B. destruct B as [v [V B]]. apply ok_inj in B. subst s.
        exists g, v. repeat split; auto. exists d. auto.
      - intros [g [v [Q [MG [NC [[d [D [NE V]]] ->]]]]]].
        assert (I1 : In d (flat_map (fun d => match d with Some d => if String.eqb d "" then [] else [d] | None => [] end) (flat_map dated l))) by (apply DT; exists g; auto).
        clear DT E. induction H as [|d' s' ds hs' A F IH]; [destruct I1|]. destruct I1 as [->|I1]; [|right; apply IH; exact I1]. rewrite V in A. left. cbn [bind] in A. apply ok_inj in A. symmetry. exact A. }
    assert (SV : b = true <-> exists s t, In s hs /\ In t hs /\ same_set s t = false).
    { subst b. destruct hs as [|h hs]; [split; [discriminate|intros [s [t [[] _]]]]|]. rewrite existsb_exists. split.
      - intros [s [I X]]. exists s, h. split; [exact I|]. split; [left; reflexivity|]. apply negb_true_iff. exact X.
      - intros [s [t [I [J X]]]]. destruct (same_set s h) eqn:A; [|exists s; rewrite A; auto]. destruct (same_set t h) eqn:B; [|exists t; rewrite B; auto].
        exfalso. apply Bool.not_true_iff_false in X. apply X. apply same_set_spec. intros x. rewrite (proj1 (same_set_spec s h) A x), (proj1 (same_set_spec t h) B x). reflexivity. }
    rewrite SV. split.
    - intros [s [t [I [J X]]]]. apply HS in I. apply HS in J. destruct I as [g [v [G1 [G2 [G3 [G4 ->]]]]]]. destruct J as [h [w [H1 [H2 [H3 [H4 ->]]]]]].
      exists g, h, v, w. repeat split; auto. intros Y. apply same_set_spec in Y. congruence.
    - intros [g [h [v [w [[G1 [G2 [G3 G4]]] [[H1 [H2 [H3 H4]]] X]]]]]]. exists (hashes v), (hashes w). split; [apply HS; exists g, v; auto|]. split; [apply HS; exists h, w; auto|].
      apply Bool.not_true_iff_false. intros Y. apply X. apply same_set_spec. exact Y.
  Qed.

  (** ** The views of join graphs *)
  (** Fields that are not of type number keep to their own view; a field of type number that is used from another view
      is computed from something in its own. *)
  Definition kept (f0 : dfield) : Prop :=
    (forall v t g p, get_field v t = Ok g -> d_type g <> "number" -> part_of g p -> d_view p = d_view g) /\
    (forall f h, known f0 f -> refers f h -> d_type h = "number" -> d_view h = d_view f \/ exists p, part_of h p /\ d_view p = d_view h).
  Lemma read_texts_in f s : shaped f -> In s (read_texts f) -> In s (texts f).
  Proof.
    unfold read_texts, texts, shaped. intros S I. destruct (d_sql f) as [x|]; cbn [some_text] in I.
    - destruct (negb (String.eqb x "")); [exact I|]. destruct (d_sides f) as [[a b]|]; [destruct S as [_ [S _]]; discriminate|destruct I].
    - destruct (d_sides f) as [[a b]|]; [|exact I]. destruct (negb (String.eqb a "") && negb (String.eqb b "")); [exact I|destruct I].
  Qed.

  (** The query of a field needs exactly its own view and the views of everything it depends on, at any depth. *)
  Theorem C77_required : forall fuel f vs, shaped f -> required_views get_field fuel f = Ok vs ->
    NoDup vs /\ forall v, In v vs <-> v = d_view f \/ exists g, depends get_field f g /\ d_view g = v.
  Proof.
    induction fuel as [|fuel IH]; intros f vs SF E; [discriminate|]. cbn [required_views] in E.
    apply bind_ok in E. destruct E as [ws [W E]]. apply ok_inj in E. subst vs. split; [apply dedup_NoDup|]. intros v. rewrite dedup_In.
    assert (IN : In v ws <-> exists g us, refers f g /\ required_views get_field fuel g = Ok us /\ In v us).
    { rewrite (concatM_ok_In _ _ _ W). split.
      - intros [s [zs [IS [Z IZ]]]]. apply (concatM_ok_In _ _ _ Z) in IZ. destruct IZ as [t [us [IT [U IU]]]]. cbv beta in U.
        destruct (String.eqb_spec t "TABLE"); [apply ok_inj in U; subst us; destruct IU|]. apply bind_ok in U. destruct U as [g [G U]].
        exists g, us. split; [|split; assumption]. exists t. split; [split; [assumption|exists s; split; [apply read_texts_in; assumption|exact IT]]|exact G].
      - intros [g [us [[t [[NT [s [IS IT]]] G]] [U IU]]]].
        assert (RT : In s (read_texts f)).
        { unfold texts in IS. unfold read_texts. unfold shaped in SF. destruct (d_sql f) as [x|]; cbn [some_text].
          - destruct IS as [->|[]]. destruct (String.eqb_spec s "") as [->|]; [destruct IT|left; reflexivity].
          - destruct (d_sides f) as [[a b]|]; [|destruct IS]. destruct SF as [_ [_ [A B]]]. destruct (String.eqb_spec a ""); [contradiction|]. destruct (String.eqb_spec b ""); [contradiction|]. exact IS. }
        destruct (concatM_ok_all _ _ _ W s RT) as [zs Z]. cbv beta in Z. exists s, zs. split; [exact RT|]. split; [exact Z|].
        apply (concatM_ok_In _ _ _ Z). exists t, us. split; [exact IT|]. split; [|exact IU]. cbv beta. destruct (String.eqb_spec t "TABLE"); [contradiction|]. rewrite G. exact U. }
    assert (ALL : forall g, refers f g -> exists us, required_views get_field fuel g = Ok us).
    { intros g [t [[NT [s [IS IT]]] G]].
      assert (RT : In s (read_texts f)).
      { unfold texts in IS. unfold read_texts. unfold shaped in SF. destruct (d_sql f) as [x|]; cbn [some_text].
        - destruct IS as [->|[]]. destruct (String.eqb_spec s "") as [->|]; [destruct IT|left; reflexivity].
        - destruct (d_sides f) as [[a b]|]; [|destruct IS]. destruct SF as [_ [_ [A B]]]. destruct (String.eqb_spec a ""); [contradiction|]. destruct (String.eqb_spec b ""); [contradiction|]. exact IS. }
      destruct (concatM_ok_all _ _ _ W s RT) as [zs Z]. cbv beta in Z. destruct (concatM_ok_all _ _ _ Z t IT) as [us U]. cbv beta in U.
      destruct (String.eqb_spec t "TABLE"); [contradiction|]. rewrite G in U. exists us. exact U. }
    assert (SG : forall g, refers f g -> shaped g) by (intros g [t [_ G]]; eapply shapes; eauto).
    split.
    - intros [->|I]; [left; reflexivity|]. apply IN in I. destruct I as [g [us [R [U IU]]]]. right. apply (IH g us (SG g R) U) in IU. destruct IU as [->|[h [D <-]]].
      + exists g. split; [apply t_step; exact R|reflexivity].
      + exists h. split; [eapply t_trans; [apply t_step; exact R|exact D]|reflexivity].
    - intros [->|[h [D <-]]]; [left; reflexivity|]. right. apply IN. apply clos_trans_t1n in D. destruct D as [h R|g h R D].
      + destruct (ALL h R) as [us U]. exists h, us. split; [exact R|]. split; [exact U|]. apply (IH h us (SG h R) U). left. reflexivity.
      + destruct (ALL g R) as [us U]. exists g, us. split; [exact R|]. split; [exact U|]. apply (IH g us (SG g R) U). right. exists h. split; [apply clos_t1n_trans; exact D|reflexivity].
  Qed.
  Lemma required_parts f0 : kept f0 -> forall fuel f vs, known f0 f -> shaped f -> required_views get_field fuel f = Ok vs ->
    forall v, In v vs -> v = d_view f \/ exists p, part_of f p /\ d_view p = v.
  Proof.
    intros [K1 K2]. induction fuel as [|fuel IH]; intros f vs KN S E v I; [discriminate|]. cbn [required_views] in E.
    apply bind_ok in E. destruct E as [ws [W E]]. assert (EV : vs = dedup (d_view f :: ws)) by congruence. subst vs.
    apply (proj1 (dedup_In _ _)) in I. destruct I as [<-|I]; [left; reflexivity|].
    apply (concatM_ok_In _ _ _ W) in I. destruct I as [s [zs [IS [Z IZ]]]].
    apply (concatM_ok_In _ _ _ Z) in IZ. destruct IZ as [t [us [IT [U IU]]]]. cbv beta in U.
    destruct (String.eqb_spec t "TABLE"); [apply ok_inj in U; subst us; destruct IU|]. apply bind_ok in U. destruct U as [g [G U]].
    assert (R : refers f g) by (exists t; split; [split; [assumption|exists s; split; [apply read_texts_in; assumption|exact IT]]|exact G]).
    assert (SG : shaped g) by (eapply shapes; eauto).
    destruct (IH g us (refers_known f0 f g R) SG U v IU) as [->|[p [P <-]]].
    - destruct (String.eqb_spec (d_type g) "number") as [N|N].
      + destruct (K2 f g KN R N) as [X|[p [P X]]]; [left; exact X|]. right. exists p. split; [eapply part_through; eauto|exact X].
      + right. exists g. split; [apply part_direct; assumption|reflexivity].
    - destruct (String.eqb_spec (d_type g) "number") as [N|N].
      + right. exists p. split; [eapply part_through; eauto|reflexivity].
      + right. exists g. split; [apply part_direct; assumption|]. symmetry. eapply K1; eassumption.
  Qed.
  (** Then every view the query of the field needs is in every join graph the field is said to be in. *)
  Theorem C77_views : forall hashes fuel fuel' f vs hs, kept f -> shaped f -> d_type f <> "cumulative" -> templated f = false ->
    required_views get_field fuel f = Ok vs -> base_graphs get_field hashes fuel' f = Ok hs ->
    forall v h, In v vs -> In h hs -> In h (hashes v).
  Proof.
    intros hashes fuel fuel' f vs hs K S NC NT R B v h IV IH.
    destruct (required_parts f K fuel f vs (or_introl eq_refl) S R v IV) as [->|[p [P <-]]];
      unfold base_graphs, graph_views in B; apply bind_ok in B; destruct B as [ws [W B]]; apply bind_ok in W; destruct W as [o [O W]];
      apply ok_inj in W; subst ws; apply ok_inj in B; subst hs; apply filter_In in IH; destruct IH as [IH1 IH2]; [exact IH1|].
    rewrite forallb_forall in IH2. apply mem_In. apply IH2.
    assert (OS : exists l, o = Some l).
    { unfold get_referenced in O. rewrite NT in O. destruct (String.eqb (d_type f) "cumulative"); [destruct (d_of f); [apply bind_ok in O; destruct O as [? [_ O]]|]; apply ok_inj in O; eauto|].
      destruct (d_sides f) as [[a b]|]; [destruct (String.eqb (d_type f) "duration")|]; repeat (apply bind_ok in O; destruct O as [? [_ O]]); apply ok_inj in O; eauto. }
    destruct OS as [l ->]. apply in_flat_map. exists (inr p). split; [|left; reflexivity]. apply (C77_parts fuel' f l S NC O). exact P.
  Qed.
End C77.
Print Assumptions C77_parts.
Print Assumptions C77_listed.
Print Assumptions C77_cumulative.
Print Assumptions C77_merged_said.
Print Assumptions C77_merged.
Print Assumptions C77_loses.
Print Assumptions C77_required.
Print Assumptions C77_views.

(** ** The recursion *)
Section Stops.
  Variable get_field : string -> string -> res dfield.
  Hypothesis shapes : forall v t g, get_field v t = Ok g -> shaped g.
  Hypothesis lookups : forall v t, get_field v t <> Err RecursionError.
  (** Without a cycle of references the answer does not run out of stack. *)
  Theorem C77_terminates : forall f, shaped f -> d_sides f = None -> Acc (fun g h => refers get_field h g) f ->
    exists n, forall fuel, n <= fuel -> referenced_fields get_field fuel (d_view f) (d_sql f) <> Err RecursionError.
  Proof.
    intros f SH NS A. revert SH NS. induction A as [f _ IH]. intros SH NS.
    destruct (d_sql f) as [s|] eqn:D; [|exists 1; intros [|fuel] L; [lia|discriminate]].
    assert (B : forall ts, incl ts (fields_to_replace s) -> exists n, forall fuel, n <= fuel ->
      concatM (fun t => if String.eqb t "TABLE" then Ok [] else match get_field (d_view f) t with
                        | Err AccessDenied => Ok [inl t] | Err e => Err e
                        | Ok g => if String.eqb (d_type g) "number" then if templated g then Ok [] else referenced_fields get_field fuel (d_view g) (d_sql g) else Ok [inr g] end) ts <> Err RecursionError).
    { induction ts as [|t ts IHt]; intros I; [exists 0; intros; discriminate|].
      destruct IHt as [n Hn]; [intros x X; apply I; right; exact X|].
      assert (T : exists m, forall fuel, m <= fuel -> (if String.eqb t "TABLE" then Ok [] else match get_field (d_view f) t with
                        | Err AccessDenied => Ok [inl t] | Err e => Err e
                        | Ok g => if String.eqb (d_type g) "number" then if templated g then Ok [] else referenced_fields get_field fuel (d_view g) (d_sql g) else Ok [inr g] end) <> Err RecursionError).
      { destruct (String.eqb_spec t "TABLE") as [|NT]; [exists 0; intros; discriminate|].
        destruct (get_field (d_view f) t) as [g|e] eqn:G.
        - destruct (String.eqb_spec (d_type g) "number") as [N|]; [|exists 0; intros; discriminate]. destruct (templated g); [exists 0; intros; discriminate|].
          assert (SG : shaped g) by (eapply shapes; eauto).
          assert (NG : d_sides g = None). { unfold shaped in SG. destruct (d_sides g) as [[a b]|]; [destruct SG as [X _]; rewrite N in X; discriminate|reflexivity]. }
          apply IH; auto. exists t. split; [|exact G]. split; [exact NT|]. exists s. split; [unfold texts; rewrite D; left; reflexivity|]. apply I. left. reflexivity.
        - exists 0. intros _ _. pose proof (lookups (d_view f) t) as LK. rewrite G in LK. destruct e; congruence. }
      destruct T as [m Hm]. exists (Nat.max n m). intros fuel L. specialize (Hn fuel ltac:(lia)). specialize (Hm fuel ltac:(lia)). cbn [concatM].
      match goal with |- bind ?a _ <> _ => destruct a as [y|e] eqn:Y end; [|intros X; apply Hm; exact X]. cbn [bind].
      match goal with |- bind ?a _ <> _ => destruct a as [z|e] eqn:Z end; [discriminate|]. intros X. apply Hn. exact X. }
    destruct (B (fields_to_replace s) (fun x X => X)) as [n Hn]. exists (S n). intros [|fuel] L; [lia|]. cbn [referenced_fields]. apply Hn. lia.
  Qed.
  (** Metrics of type number that refer to each other in a circle never get an answer. *)
  Theorem C77_cycle : forall P : dfield -> Prop,
    (forall f, P f -> d_type f = "number" /\ templated f = false /\ shaped f /\ exists g, refers get_field f g /\ P g) ->
    forall fuel f, P f -> (forall l, referenced_fields get_field fuel (d_view f) (d_sql f) <> Ok l)
      /\ (d_measure f = true -> d_flag f = None -> forall b, is_merged_result get_field fuel f <> Ok b)
      /\ (forall vs, required_views get_field fuel f <> Ok vs).
  Proof.
    intros P H.
    assert (NO : forall fuel f l, P f -> referenced_fields get_field fuel (d_view f) (d_sql f) <> Ok l).
    { induction fuel as [|fuel IH]; intros f l F E; [discriminate|]. cbn [referenced_fields] in E.
      destruct (H f F) as [N [NT [S [g [[t [[T [s [I J]]] G]] Pg]]]]].
      assert (NS : d_sides f = None). { unfold shaped in S. destruct (d_sides f) as [[a b]|]; [destruct S as [X _]; rewrite N in X; discriminate|reflexivity]. }
      unfold texts in I. rewrite NS in I. destruct (d_sql f) as [x|]; [|destruct I]. destruct I as [->|[]].
      destruct (concatM_ok_all _ _ _ E t J) as [zs Z]. cbv beta in Z. destruct (String.eqb_spec t "TABLE"); [contradiction|]. rewrite G in Z.
      destruct (H g Pg) as [Ng [NTg _]]. rewrite Ng, NTg in Z. exact (IH g zs Pg Z). }
    assert (NR : forall fuel f vs, P f -> required_views get_field fuel f <> Ok vs).
    { induction fuel as [|fuel IH]; intros f vs F E; [discriminate|]. cbn [required_views] in E. apply bind_ok in E. destruct E as [ws [W _]].
      destruct (H f F) as [N [NT [S [g [[t [[T [s [I J]]] G]] Pg]]]]].
      assert (NS : d_sides f = None). { unfold shaped in S. destruct (d_sides f) as [[a b]|]; [destruct S as [X _]; rewrite N in X; discriminate|reflexivity]. }
      assert (RT : In s (read_texts f)).
      { unfold texts in I. rewrite NS in I. unfold read_texts. destruct (d_sql f) as [x|]; [|destruct I]. destruct I as [->|[]]. cbn [some_text].
        destruct (String.eqb_spec s "") as [->|]; [destruct J|left; reflexivity]. }
      destruct (concatM_ok_all _ _ _ W s RT) as [us U]. cbv beta in U. destruct (concatM_ok_all _ _ _ U t J) as [zs Z]. cbv beta in Z.
      destruct (String.eqb_spec t "TABLE"); [contradiction|]. rewrite G in Z. exact (IH g zs Pg Z). }
    intros fuel f F. split; [intros l; apply NO; exact F|]. split; [|intros vs; apply NR; exact F].
    intros M FL b. unfold is_merged_result. rewrite FL, M, (proj1 (H f F)). change (String.eqb "number" "number" && true) with true. cbv iota.
    intros E. apply bind_ok in E. destruct E as [r [R _]]. exact (NO _ _ _ F R).
  Qed.
End Stops.
Print Assumptions C77_terminates.
Print Assumptions C77_cycle.

(** ** Where the statement is false of the code *)
(** A reference to a field of type number that has none of its own leaves no trace: its view is needed by the query but
    is not one of the views that decide the join graphs. *)
Theorem C77_number_view_refuted : forall get_field hashes f g s t u n,
  d_sql f = Some s -> s <> "" -> fields_to_replace s = [t] -> t <> "TABLE" -> contains "{%" s = false -> d_type f <> "cumulative" -> d_sides f = None ->
  get_field (d_view f) t = Ok g -> d_type g = "number" -> d_sql g = Some u -> u <> "" -> contains "{%" u = false -> fields_to_replace u = ["TABLE"] -> d_view g <> d_view f ->
  base_graphs get_field hashes (S (S n)) f = Ok (hashes (d_view f)) /\
  required_views get_field (S (S n)) f = Ok [d_view f; d_view g].
Proof.
  intros get_field hashes f g s t u n D NE R NT TP NC NS G N DU UE TU RU W. split.
  - unfold base_graphs, graph_views, get_referenced, templated. rewrite D, TP. destruct (String.eqb_spec (d_type f) "cumulative"); [contradiction|]. rewrite NS.
    cbn [referenced_fields]. rewrite R. cbn [concatM]. destruct (String.eqb_spec t "TABLE"); [contradiction|]. rewrite G, N. unfold templated. rewrite DU, TU. cbn [String.eqb].
    change (String.eqb "number" "number") with true. cbv iota. cbn [referenced_fields]. rewrite RU. cbn. f_equal. induction (hashes (d_view f)) as [|x l IH]; [reflexivity|]. cbn [filter]. f_equal. exact IH.
  - assert (RG : required_views get_field (S n) g = Ok [d_view g]).
    { cbn [required_views]. unfold read_texts, some_text. rewrite DU. destruct (String.eqb_spec u ""); [contradiction|]. cbn [negb concatM]. rewrite RU. reflexivity. }
    remember (S n) as k. cbn [required_views]. unfold read_texts, some_text. rewrite D. destruct (String.eqb_spec s ""); [contradiction|]. cbn [negb concatM]. rewrite R. cbn [concatM].
    destruct (String.eqb_spec t "TABLE"); [contradiction|]. rewrite G. cbn [bind]. rewrite RG. cbn.
    destruct (String.eqb_spec (d_view g) (d_view f)); [contradiction|]. reflexivity.
Qed.
Print Assumptions C77_number_view_refuted.

Definition fld (view name type : string) (measure : bool) (sql : string) : dfield := DField view name type measure (Some sql) None None (if measure then Some (view ++ ".day")%string else None) None.
Definition ex_fields (hidden : list string) (view t : string) : res dfield :=
  let i := if contains "." t then t else (view ++ "." ++ t)%string in
  if mem i hidden then Err AccessDenied
  else if String.eqb i "customers.age" then Ok (fld "customers" "age" "number" false "${TABLE}.age")
  else if String.eqb i "customers.region" then Ok (fld "customers" "region" "string" false "${TABLE}.region")
  else if String.eqb i "orders.region" then Ok (fld "orders" "region" "string" false "${customers.region}")
  else if String.eqb i "orders.revenue" then Ok (fld "orders" "revenue" "sum" true "${TABLE}.revenue")
  else if String.eqb i "visits.visits" then Ok (fld "visits" "visits" "count" true "${TABLE}.id")
  else if String.eqb i "orders.ratio" then Ok (fld "orders" "ratio" "number" true "${revenue} / ${visits.visits}")
  else if String.eqb i "orders.templated" then Ok (fld "orders" "templated" "number" true "{% if a %} ${revenue} / ${visits.visits} {% endif %}")
  else Err AccessDenied.
Definition ex_hashes (v : string) : list string :=
  if String.eqb v "customers" then ["subquery_0"] else if String.eqb v "orders" then ["subquery_0"; "subquery_1"] else ["subquery_1"; "subquery_2"].
(** The average age of the customers of orders is said to be in a join graph that has no customers. *)
Example C77_number_view_case : base_graphs (ex_fields []) ex_hashes 5 (fld "orders" "avg_age" "average" true "${customers.age}") = Ok ["subquery_0"; "subquery_1"]
  /\ required_views (ex_fields []) 5 (fld "orders" "avg_age" "average" true "${customers.age}") = Ok ["orders"; "customers"]
  /\ ~ In "subquery_1" (ex_hashes "customers").
Proof. split; [reflexivity|]. split; [reflexivity|]. intros [X|[]]; discriminate. Qed.
(** A dimension that refers to another view is not looked through. *)
Theorem C77_chain_refuted : exists f, base_graphs (ex_fields []) ex_hashes 5 f = Ok ["subquery_0"; "subquery_1"]
  /\ required_views (ex_fields []) 5 f = Ok ["orders"; "customers"] /\ ~ In "subquery_1" (ex_hashes "customers").
Proof. exists (fld "orders" "regions" "count_distinct" true "${region}"). split; [reflexivity|]. split; [reflexivity|]. intros [X|[]]; discriminate. Qed.
Print Assumptions C77_chain_refuted.
(** A metric whose parts the user may not all see is not a merged result for them, and is one for others. *)
Theorem C77_hidden_refuted : exists f, is_merged_result (ex_fields []) 5 f = Ok true /\ is_merged_result (ex_fields ["visits.visits"]) 5 f = Ok false.
Proof. exists (fld "orders" "double" "number" true "2 * ${ratio}"). split; reflexivity. Qed.
Print Assumptions C77_hidden_refuted.
(** A metric of type number with template marks hides what it is computed from from the metrics that refer to it. *)
Theorem C77_template_refuted : forall get_field fuel f g s t, d_sql f = Some s -> fields_to_replace s = [t] -> t <> "TABLE" -> get_field (d_view f) t = Ok g -> d_type g = "number" -> templated g = true ->
  referenced_fields get_field (S fuel) (d_view f) (d_sql f) = Ok [].
Proof.
  intros get_field fuel f g s t D R NT G N T. rewrite D. cbn [referenced_fields]. rewrite R. cbn [concatM]. destruct (String.eqb_spec t "TABLE"); [contradiction|]. rewrite G, N, T. reflexivity.
Qed.
Print Assumptions C77_template_refuted.
Example C77_template_case : is_merged_result (ex_fields []) 5 (fld "orders" "x" "number" true "${ratio}") = Ok true /\ is_merged_result (ex_fields []) 5 (fld "orders" "x" "number" true "${templated}") = Ok false.
Proof. split; reflexivity. Qed.
(** The hypotheses are met by the project without the templated metric, for a metric of type number over two views. *)
Example C77_case : exists l, get_referenced (ex_fields ["orders.templated"]) 5 (fld "orders" "double" "number" true "2 * ${ratio} + ${nothing}") = Ok (Some l) /\ List.length l = 3
  /\ (forall v t g, ex_fields ["orders.templated"] v t = Ok g -> shaped g /\ (d_type g = "number" -> templated g = false)).
Proof.
  eexists. split; [vm_compute; reflexivity|]. split; [reflexivity|]. intros v t g. unfold ex_fields.
  generalize (if contains "." t then t else (v ++ "." ++ t)%string). intros i. destruct (mem i ["orders.templated"]) eqn:M; [discriminate|].
  repeat (match goal with |- context [String.eqb i ?x] => destruct (String.eqb_spec i x) end; [subst i; first [discriminate M|intros E; apply ok_inj in E; subst g; split; [exact I|intros _; reflexivity]]|]). discriminate.
Qed.
(** layered and kept are met by the project without the field of type number of customers and the chain, and the metric
    over two views *)
Example C77_kept_case : let gf := ex_fields ["orders.templated"; "customers.age"; "orders.region"] in
  let f := fld "orders" "per_visit" "number" true "${ratio} * 2" in
  layered gf f /\ kept gf f /\ base_graphs gf ex_hashes 5 f = Ok ["subquery_1"] /\ required_views gf 5 f = Ok ["orders"; "visits"].
Proof.
  intros gf f.
  assert (GF : forall v t g, gf v t = Ok g -> In g [fld "customers" "region" "string" false "${TABLE}.region"; fld "orders" "revenue" "sum" true "${TABLE}.revenue"; fld "visits" "visits" "count" true "${TABLE}.id"; fld "orders" "ratio" "number" true "${revenue} / ${visits.visits}"]).
  { intros v t g. unfold gf, ex_fields. generalize (if contains "." t then t else (v ++ "." ++ t)%string). intros i.
    destruct (mem i ["orders.templated"; "customers.age"; "orders.region"]) eqn:M; [discriminate|].
    repeat (match goal with |- context [String.eqb i ?x] => destruct (String.eqb_spec i x) end; [subst i; first [discriminate M|intros E; apply ok_inj in E; subst g; cbn; tauto]|]). discriminate. }
  assert (MT : forall g t, In g [fld "customers" "region" "string" false "${TABLE}.region"; fld "orders" "revenue" "sum" true "${TABLE}.revenue"; fld "visits" "visits" "count" true "${TABLE}.id"] -> ~ mentions g t).
  { intros g t I [NT [s [J K]]]. repeat (destruct I as [<-|I]; [destruct J as [<-|[]]; vm_compute in K; destruct K as [K|[]]; apply NT; symmetry; exact K|]). destruct I. }
  assert (RAT : forall h, refers gf (fld "orders" "ratio" "number" true "${revenue} / ${visits.visits}") h -> d_type h <> "number").
  { intros h [t [[_ [s [[<-|[]] K]]] G]]. vm_compute in K. destruct K as [<-|[<-|[]]]; vm_compute in G; apply ok_inj in G; subst h; discriminate. }
  assert (FR : forall h, refers gf f h -> h = fld "orders" "ratio" "number" true "${revenue} / ${visits.visits}").
  { intros h [t [[_ [s [[<-|[]] K]]] G]]. vm_compute in K. destruct K as [<-|[]]. vm_compute in G. apply ok_inj in G. subst h. reflexivity. }
  split; [|split; [split|split; reflexivity]].
  - intros x g [->|[v [t G]]] R N.
    + destruct N; [exfalso; apply H; reflexivity|discriminate].
    + apply GF in G. destruct R as [u [M _]]. destruct G as [<-|[<-|[<-|[<-|[]]]]]; try (exfalso; eapply MT; [|exact M]; cbn; tauto). destruct N as [N|N]; [exfalso; apply N; reflexivity|discriminate].
  - intros v t g p G N P. apply GF in G. assert (R : exists h, refers gf g h) by (inversion P; eauto). destruct R as [h [u [M _]]].
    destruct G as [<-|[<-|[<-|[<-|[]]]]]; try (exfalso; eapply MT; [|exact M]; cbn; tauto).
  - intros x h [->|[v [t G]]] R N.
    + left. rewrite (FR h R). reflexivity.
    + apply GF in G. destruct G as [<-|[<-|[<-|[<-|[]]]]]; try (destruct R as [u [M _]]; exfalso; eapply MT; [|exact M]; cbn; tauto). exfalso. exact (RAT h R N).
Qed.
Example C77_loses_case : loses_join_ability (ex_fields []) ex_hashes 5 (fld "orders" "double" "number" true "2 * ${ratio}") = Ok true.
Proof. reflexivity. Qed.
