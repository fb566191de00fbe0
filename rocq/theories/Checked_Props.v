(** Specification and property theorems: C85, a field that passes validation can be written as SQL. *)
From Coq Require Import List String Ascii Bool Relations Lia.
From Verif Require Import PyBase PyList PyStr PyRefs Deps_Model Deps_Props Subst_Model Checked_Model.
From Verif Require Subst_Props.
Import ListNotations.
Local Open Scope string_scope.
Local Open Scope list_scope.

(** ** Specification: a field is written by its sql, with the references in it ([mentions], [refers] of C77). *)
Definition simple (f : dfield) : Prop := d_sides f = None /\ (d_type f = "cumulative" -> d_sql f = None).
Definition summed (f : dfield) : Prop := d_type f = "number" /\ d_measure f = true.

Lemma unknown_In l t : In t (unknown l) <-> In (inl t) l.
Proof.
  unfold unknown. rewrite in_flat_map. split.
  - intros [[x|g] [I J]]; [destruct J as [->|[]]; exact I|destruct J].
  - intros I. exists (inl t). split; [exact I|left; reflexivity].
Qed.
Lemma simple_texts f : simple f -> texts f = match d_sql f with Some s => [s] | None => [] end.
Proof. intros [N _]. unfold texts. rewrite N. destruct (d_sql f); reflexivity. Qed.

Section C85.
  Variable get_field : string -> string -> res dfield.
  Variable wrap : dfield -> string -> string.
  Variable alias : dfield -> string.
  Notation expansion := (expansion get_field wrap alias).
  Notation lookup_x := (lookup_x get_field wrap alias).
  (** The fields of the project, which lookups answer with *)
  Variable fs : list dfield.
  Hypothesis simples : forall f, In f fs -> simple f.
  Hypothesis closed : forall f t g, In f fs -> get_field (d_view f) t = Ok g -> In g fs.

  (** ** The report *)
  Lemma report_In fuel es f p : report get_field fuel fs = Ok es ->
    (In (f, p) es <-> In f fs /\ exists l, field_report get_field fuel f = Ok l /\ In p l).
  Proof.
    unfold report. intros R. pose proof (concatM_ok_In _ _ _ R) as K. rewrite K. clear K. split.
    - intros (x & zs & I & Z & J). apply bind_ok in Z. destruct Z as [l [L Z]]. inversion Z; subst zs. apply in_map_iff in J. destruct J as [q [E J]]. inversion E; subst.
      split; [exact I|]. exists l. split; [exact L|exact J].
    - intros [I [l [L J]]]. exists f, (map (pair f) l). split; [exact I|]. rewrite L. split; [reflexivity|]. apply in_map. exact J.
  Qed.
  Lemma report_all fuel es f : report get_field fuel fs = Ok es -> In f fs -> exists l, field_report get_field fuel f = Ok l.
  Proof.
    intros R I. destruct (concatM_ok_all _ _ _ R f I) as [zs Z]. apply bind_ok in Z. destruct Z as [l [L _]]. exists l. exact L.
  Qed.
  (** What is said of one field *)
  Lemma said fuel f s l : simple f -> d_sql f = Some s -> field_report get_field fuel f = Ok l ->
    (contains "{%" s = true /\ In PTemplate l) \/
    (contains "{%" s = false /\ ~ In PTemplate l /\ exists refs, referenced_fields get_field fuel (d_view f) (Some s) = Ok refs /\ forall t, In (PRef t) l <-> In (inl t) refs).
  Proof.
    intros [N C] D R. unfold field_report in R. rewrite D in R. destruct (String.eqb_spec (d_type f) "cumulative") as [E|E]; [specialize (C E); congruence|].
    unfold sql_errors in R. apply bind_ok in R. destruct R as [r [G R]]. inversion R; subst l. clear R.
    unfold get_referenced, templated in G. rewrite D, N in G. destruct (String.eqb_spec (d_type f) "cumulative") as [E'|_]; [contradiction|].
    destruct (contains "{%" s) eqn:T.
    - inversion G; subst r. left. split; [reflexivity|]. apply in_or_app. right. left. reflexivity.
    - apply bind_ok in G. destruct G as [refs [G E1]]. inversion E1; subst r. right. split; [reflexivity|]. split.
      + intros I. apply in_app_iff in I. destruct I as [I|I]; [destruct (String.eqb _ _); [destruct I as [I|[]]; discriminate I|destruct I]|].
        apply in_map_iff in I. destruct I as [x [I _]]. discriminate I.
      + exists refs. split; [exact G|]. intros t. rewrite in_app_iff, in_map_iff. split.
        * intros [I|[x [I J]]]; [destruct (String.eqb _ _); [destruct I as [I|[]]; discriminate I|destruct I]|]. inversion I; subst. apply unknown_In. exact J.
        * intros I. right. exists t. split; [reflexivity|]. apply unknown_In. exact I.
  Qed.
  (** One reference of a field whose references were listed *)
  Lemma listed_ref fuel v s refs t : referenced_fields get_field fuel v (Some s) = Ok refs -> In t (fields_to_replace s) -> t <> "TABLE" ->
    (exists g, get_field v t = Ok g) \/ (get_field v t = Err AccessDenied /\ In (inl t) refs).
  Proof.
    intros R I T. destruct fuel as [|fuel]; [discriminate R|]. cbn [referenced_fields] in R.
    pose proof (concatM_ok_In _ _ _ R) as K. destruct (concatM_ok_all _ _ _ R t I) as [zs Z]. cbv beta in Z.
    destruct (String.eqb_spec t "TABLE") as [E|_]; [contradiction|]. destruct (get_field v t) as [g|e] eqn:G; [left; exists g; reflexivity|].
    right. destruct e; try discriminate Z. split; [reflexivity|]. apply K. exists t, zs. split; [exact I|].
    destruct (String.eqb_spec t "TABLE") as [E|_]; [contradiction|]. rewrite G. split; [exact Z|]. inversion Z. left. reflexivity.
  Qed.

  Notation refers := (refers get_field).

  (** Every reference that is not found, and every template, is reported for the field it stands in. *)
  Theorem C85_reported fuel es f : report get_field fuel fs = Ok es -> In f fs ->
    (templated f = true -> In (f, PTemplate) es) /\
    (templated f = false -> forall t, mentions f t -> (exists g, get_field (d_view f) t = Ok g) \/ In (f, PRef t) es).
  Proof.
    intros R I. destruct (report_all fuel es f R I) as [l L]. pose proof (simples f I) as SI. split.
    - unfold templated. destruct (d_sql f) as [s|] eqn:D; [|discriminate]. intros T. destruct (said fuel f s l SI D L) as [[_ X]|[T' _]]; [|congruence].
      apply (report_In fuel es f PTemplate R). split; [exact I|]. exists l. split; [exact L|exact X].
    - intros NP t [NT [s [Is J]]]. rewrite (simple_texts f SI) in Is. unfold templated in NP. destruct (d_sql f) as [s'|] eqn:D; [|destruct Is]. destruct Is as [->|[]].
      destruct (said fuel f s l SI D L) as [[T _]|[_ [_ [refs [G K]]]]]; [congruence|].
      destruct (listed_ref fuel (d_view f) s refs t G J NT) as [X|[_ X]]; [left; exact X|right]. apply (report_In fuel es f (PRef t) R). split; [exact I|]. exists l. split; [exact L|apply K; exact X].
  Qed.

  (** With nothing reported, no field has a template and every reference names a field of the project. *)
  Theorem C85_resolved fuel f : report get_field fuel fs = Ok [] -> In f fs ->
    templated f = false /\ forall t, mentions f t -> exists g, get_field (d_view f) t = Ok g /\ In g fs.
  Proof.
    intros R I. destruct (C85_reported fuel [] f R I) as [A B].
    assert (T : templated f = false) by (destruct (templated f); [destruct (A eq_refl)|reflexivity]).
    split; [exact T|]. intros t M. destruct (B T t M) as [[g G]|[]]. exists g. split; [exact G|]. exact (closed f t g I G).
  Qed.

  (** ** Expansion *)
  Lemma sub_all value view names : forall sql, (forall n, In n names -> n <> "TABLE" -> exists t, value n = Ok (RText t)) ->
    exists x, substitute value view names sql = Ok x.
  Proof.
    induction names as [|n names IH]; intros sql H; cbn [substitute]; [eexists; reflexivity|].
    destruct (String.eqb_spec n "TABLE") as [E|E]; [apply IH; intros m M; apply H; right; exact M|].
    destruct (H n (or_introl eq_refl) E) as [t V]. rewrite V. cbn [bind]. apply IH. intros m M. apply H. right. exact M.
  Qed.
  Lemma sub_err value view names e : forall sql, substitute value view names sql = Err e ->
    exists n, In n names /\ n <> "TABLE" /\ (value n = Err e \/ (value n = Ok RList /\ e = QueryError) \/ (value n = Ok RNone /\ e = TypeError)).
  Proof.
    induction names as [|n names IH]; intros sql H; cbn [substitute] in H; [discriminate H|].
    assert (K : forall sql', substitute value view names sql' = Err e -> exists m, In m (n :: names) /\ m <> "TABLE" /\ (value m = Err e \/ (value m = Ok RList /\ e = QueryError) \/ (value m = Ok RNone /\ e = TypeError))).
    { intros sql' X. destruct (IH sql' X) as [m [M Y]]. exists m. split; [right; exact M|exact Y]. }
    destruct (String.eqb_spec n "TABLE") as [E|E]; [exact (K _ H)|].
    destruct (value n) as [[t| |]|e'] eqn:V; cbn [bind] in H.
    - exact (K _ H).
    - exists n. split; [left; reflexivity|]. split; [exact E|]. right. right. split; [exact V|congruence].
    - exists n. split; [left; reflexivity|]. split; [exact E|]. right. left. split; [exact V|congruence].
    - exists n. split; [left; reflexivity|]. split; [exact E|]. left. congruence.
  Qed.
  Lemma sub_bad value view names n : In n names -> n <> "TABLE" -> (forall t, value n <> Ok (RText t)) -> forall sql, exists e, substitute value view names sql = Err e.
  Proof.
    intros I T B. induction names as [|m names IH]; intros sql; [destruct I|]. cbn [substitute].
    destruct (String.eqb_spec m "TABLE") as [E|E].
    - destruct I as [->|I]; [contradiction|]. apply IH. exact I.
    - destruct I as [->|I].
      + destruct (value n) as [[t| |]|e'] eqn:V; cbn [bind]; [destruct (B t eq_refl)| | |]; eexists; reflexivity.
      + destruct (value m) as [[t| |]|e'] eqn:V; cbn [bind]; [apply IH; exact I| | |]; eexists; reflexivity.
  Qed.
  Lemma summed_spec f : xf_number_measure (as_x wrap alias f) = true <-> summed f.
  Proof. cbn [as_x xf_number_measure]. unfold summed. rewrite andb_true_iff, String.eqb_eq. tauto. Qed.
  Lemma unsummed f : ~ summed f -> String.eqb (d_type f) "number" && d_measure f = false.
  Proof. intros N. pose proof (summed_spec f) as K. cbn [as_x xf_number_measure] in K. destruct (String.eqb (d_type f) "number" && d_measure f); [|reflexivity]. destruct N. apply K. reflexivity. Qed.
  Lemma mentions_sql f s t : simple f -> d_sql f = Some s -> (mentions f t <-> t <> "TABLE" /\ In t (fields_to_replace s)).
  Proof.
    intros SI D. unfold mentions. rewrite (simple_texts f SI), D. split; intros [A B]; (split; [exact A|]).
    - destruct B as [x [[<-|[]] B]]. exact B.
    - exists s. split; [left; reflexivity|exact B].
  Qed.
  (** One step of the expansion of a field that is no metric of type number *)
  Lemma step m f s : ~ summed f -> d_sql f = Some s -> s <> "" -> templated f = false ->
    expansion (S m) f = (t <- substitute (fun n => g <- lookup_x (d_view f) n ;; raw_sql_query lookup_x m g) (d_view f) (fields_to_replace s) s ;; Ok (RText (wrap f (collapse t)))).
  Proof.
    intros N D NE T. unfold Checked_Model.expansion. cbn [raw_sql_query as_x xf_number_measure xf_sql xf_view xf_wrap]. rewrite (unsummed f N), D.
    destruct (String.eqb_spec s "") as [E|_]; [contradiction|]. unfold templated in T. rewrite D in T. rewrite T. reflexivity.
  Qed.
  Lemma value_ok m v n g : get_field v n = Ok g -> (x <- lookup_x v n ;; raw_sql_query lookup_x m x) = expansion m g.
  Proof. intros G. unfold Checked_Model.lookup_x at 1. rewrite G. reflexivity. Qed.

  (** A field that passes, with nothing left to a metric of type number and no circle, is written as a text. *)
  Definition written (f : dfield) : Prop := exists s, d_sql f = Some s /\ s <> "".
  Theorem C85_expands_partial fuel : report get_field fuel fs = Ok [] ->
    (forall f, In f fs -> written f) -> (forall f g, In f fs -> ~ summed f -> refers f g -> ~ summed g) ->
    forall f, Acc (fun g h => refers h g) f -> In f fs -> ~ summed f -> exists n, forall m, n <= m -> exists t, expansion m f = Ok (RText t).
  Proof.
    intros R W NS f A. induction A as [f _ IH]. intros I N. pose proof (simples f I) as SI. destruct (W f I) as [s [D NE]].
    destruct (C85_resolved fuel f R I) as [T K].
    assert (B : exists n, forall u, In u (fields_to_replace s) -> u <> "TABLE" -> forall m, n <= m -> exists t, (x <- lookup_x (d_view f) u ;; raw_sql_query lookup_x m x) = Ok (RText t)).
    { assert (H : forall u, In u (fields_to_replace s) -> u <> "TABLE" -> exists n, forall m, n <= m -> exists t, (x <- lookup_x (d_view f) u ;; raw_sql_query lookup_x m x) = Ok (RText t)).
      { intros u U NT. assert (M : mentions f u) by (apply (mentions_sql f s u SI D); split; assumption). destruct (K u M) as [g [G Ig]].
        assert (RF : refers f g) by (exists u; split; assumption).
        destruct (IH g RF Ig (NS f g I N RF)) as [n H]. exists n. intros m L. rewrite (value_ok m _ _ _ G). exact (H m L). }
      clear - H. induction (fields_to_replace s) as [|u us IHu]; [exists 0; intros u []|].
      destruct IHu as [n1 H1]; [intros v V; apply H; right; exact V|].
      destruct (string_dec u "TABLE") as [E|E].
      - exists n1. intros v [<-|V] NT; [contradiction|]. exact (H1 v V NT).
      - destruct (H u (or_introl eq_refl) E) as [n2 H2]. exists (max n1 n2). intros v [<-|V] NT m L; [apply H2; lia|apply H1; [exact V|exact NT|lia]]. }
    destruct B as [n B]. exists (S n). intros m L. destruct m as [|m]; [lia|]. rewrite (step m f s N D NE T).
    destruct (sub_all (fun u => x <- lookup_x (d_view f) u ;; raw_sql_query lookup_x m x) (d_view f) (fields_to_replace s) s) as [x X].
    { intros u U NT. apply B; [exact U|exact NT|lia]. }
    rewrite X. cbn [bind]. eexists. reflexivity.
  Qed.

  (** Whatever the project, a field that passes gives a text, or (a metric of type number) its references, or stops
      for one of three reasons: the circle of references, a field without sql, a reference to a metric of type number. *)
  Theorem C85_answers fuel : report get_field fuel fs = Ok [] -> forall m f, In f fs ->
    (exists t, expansion m f = Ok (RText t)) \/ (summed f /\ expansion m f = Ok RList) \/ expansion m f = Err RecursionError \/
    (expansion m f = Err QueryError /\ exists g, clos_refl_trans dfield refers f g /\ ~ summed g /\ (~ written g \/ exists h, refers g h /\ summed h)).
  Proof.
    intros R m. induction m as [|m IH]; intros f I; [right; right; left; reflexivity|].
    destruct (String.eqb (d_type f) "number" && d_measure f) eqn:N.
    { right. left. split; [apply summed_spec; exact N|]. unfold Checked_Model.expansion. cbn [raw_sql_query as_x xf_number_measure]. rewrite N. reflexivity. }
    assert (NS : ~ summed f) by (intros Q; apply summed_spec in Q; cbn [as_x xf_number_measure] in Q; congruence).
    assert (UN : ~ written f -> expansion (S m) f = Err QueryError -> exists g, clos_refl_trans dfield refers f g /\ ~ summed g /\ (~ written g \/ exists h, refers g h /\ summed h)).
    { intros W _. exists f. split; [apply rt_refl|]. split; [exact NS|left; exact W]. }
    destruct (d_sql f) as [s|] eqn:D.
    2: { assert (X : expansion (S m) f = Err QueryError) by (unfold Checked_Model.expansion; cbn [raw_sql_query as_x xf_number_measure xf_sql]; rewrite N, D; reflexivity).
         right. right. right. split; [exact X|]. apply UN; [|exact X]. intros [s [Y _]]. congruence. }
    destruct (string_dec s "") as [E|NE].
    { subst s. assert (X : expansion (S m) f = Err QueryError) by (unfold Checked_Model.expansion; cbn [raw_sql_query as_x xf_number_measure xf_sql]; rewrite N, D; reflexivity).
      right. right. right. split; [exact X|]. apply UN; [|exact X]. intros [s [Y Z]]. rewrite D in Y. inversion Y. congruence. }
    clear UN. destruct (C85_resolved fuel f R I) as [T K]. rewrite (step m f s NS D NE T).
    destruct (substitute _ (d_view f) (fields_to_replace s) s) as [x|e] eqn:X; cbn [bind]; [left; eexists; reflexivity|].
    right. right. apply sub_err in X. destruct X as [u [U [NT X]]].
    assert (M : mentions f u) by (apply (mentions_sql f s u (simples f I) D); split; assumption). destruct (K u M) as [g [G Ig]].
    assert (RF : refers f g) by (exists u; split; assumption). cbv beta in X. rewrite (value_ok m _ _ _ G) in X.
    destruct (IH g Ig) as [[t Y]|[[SG Y]|[Y|[Y Z]]]]; rewrite Y in X.
    - destruct X as [X|[[X _]|[X _]]]; discriminate X.
    - destruct X as [X|[[_ ->]|[X _]]]; try discriminate X. right. split; [reflexivity|]. exists f. split; [apply rt_refl|]. split; [exact NS|]. right. exists g. split; assumption.
    - destruct X as [X|[[X _]|[X _]]]; try discriminate X. left. congruence.
    - destruct X as [X|[[X _]|[X _]]]; try discriminate X. right. split; [congruence|]. destruct Z as [h [P Q]]. exists h. split; [|exact Q].
      apply rt_trans with g; [apply rt_step; exact RF|exact P].
  Qed.

  (** A field reported for a template or for a reference has no text: the reports are not false alarms. *)
  Lemma refs_lost fuel : forall v s refs t, referenced_fields get_field fuel v (Some s) = Ok refs -> In (inl t) refs ->
    forall m sql, exists e, substitute (fun n => g <- lookup_x v n ;; raw_sql_query lookup_x m g) v (fields_to_replace s) sql = Err e.
  Proof.
    induction fuel as [|fuel IH]; intros v s refs t R I m sql; [discriminate R|]. cbn [referenced_fields] in R.
    apply (concatM_ok_In _ _ _ R) in I. destruct I as (u & zs & U & Z & J).
    destruct (String.eqb_spec u "TABLE") as [E|E]; [inversion Z; subst zs; destruct J|].
    apply (sub_bad _ v (fields_to_replace s) u U E). intros x.
    destruct (get_field v u) as [g|e] eqn:G; [|unfold Checked_Model.lookup_x; rewrite G; discriminate].
    rewrite (value_ok m _ _ _ G). destruct (String.eqb_spec (d_type g) "number") as [NB|NB]; [|inversion Z; subst zs; destruct J as [J|[]]; discriminate J].
    destruct (templated g) eqn:T; [inversion Z; subst zs; destruct J|].
    destruct (d_sql g) as [s'|] eqn:D; [|destruct fuel; [discriminate Z|]; cbn [referenced_fields] in Z; inversion Z; subst zs; destruct J].
    intros X. destruct m as [|m]; [discriminate X|].
    destruct (String.eqb (d_type g) "number" && d_measure g) eqn:N.
    - unfold Checked_Model.expansion in X. cbn [raw_sql_query as_x xf_number_measure] in X. rewrite N in X. discriminate X.
    - assert (NS : ~ summed g) by (intros Q; apply summed_spec in Q; cbn [as_x xf_number_measure] in Q; congruence).
      destruct (string_dec s' "") as [E1|NE].
      + subst s'. unfold Checked_Model.expansion in X. cbn [raw_sql_query as_x xf_number_measure xf_sql] in X. rewrite N, D in X. discriminate X.
      + rewrite (step m g s' NS D NE T) in X. destruct (IH _ _ _ _ Z J m s') as [e Y]. rewrite Y in X. discriminate X.
  Qed.
  Theorem C85_true_alarm fuel es f : report get_field fuel fs = Ok es -> ~ summed f ->
    (In (f, PTemplate) es -> forall m t, expansion m f <> Ok (RText t)) /\
    (forall u, In (f, PRef u) es -> forall m t, expansion m f <> Ok (RText t)).
  Proof.
    intros R NS. split.
    - intros I m x X. apply (report_In fuel es f _ R) in I. destruct I as [I [l [L J]]].
      destruct (d_sql f) as [s|] eqn:D; [|unfold field_report in L; rewrite D in L; inversion L; subst l; destruct J].
      destruct (said fuel f s l (simples f I) D L) as [[T _]|[_ [B _]]]; [|contradiction].
      destruct m as [|m]; [discriminate X|]. unfold Checked_Model.expansion in X. cbn [raw_sql_query as_x xf_number_measure xf_sql] in X. rewrite (unsummed f NS), D in X.
      destruct (String.eqb s ""); [discriminate X|]. rewrite T in X. discriminate X.
    - intros u I m x X. apply (report_In fuel es f _ R) in I. destruct I as [I [l [L J]]].
      destruct (d_sql f) as [s|] eqn:D; [|unfold field_report in L; rewrite D in L; inversion L; subst l; destruct J].
      destruct m as [|m]; [discriminate X|]. destruct (string_dec s "") as [E|NE].
      { subst s. unfold Checked_Model.expansion in X. cbn [raw_sql_query as_x xf_number_measure xf_sql] in X. rewrite (unsummed f NS), D in X. discriminate X. }
      destruct (said fuel f s l (simples f I) D L) as [[T _]|[T [_ [refs [G K]]]]].
      { unfold Checked_Model.expansion in X. cbn [raw_sql_query as_x xf_number_measure xf_sql] in X. rewrite (unsummed f NS), D in X.
        destruct (String.eqb s ""); [discriminate X|]. rewrite T in X. discriminate X. }
      assert (T' : templated f = false) by (unfold templated; rewrite D; exact T). rewrite (step m f s NS D NE T') in X.
      destruct (refs_lost fuel _ _ _ _ G (proj1 (K u) J) m s) as [e Y]. rewrite Y in X. discriminate X.
  Qed.
  (** The same holds of a field that is reported to be its own sql, when its name names it. *)
  Theorem C85_self fuel es f : report get_field fuel fs = Ok es -> In (f, PSelf) es -> get_field (d_view f) (d_name f) = Ok f ->
    d_name f <> "TABLE" -> has_char rbrace (d_name f) = false -> has_char newline (d_name f) = false -> ~ summed f -> forall m t, expansion m f <> Ok (RText t).
  Proof.
    intros R I G NT B1 B2 NS m. apply (report_In fuel es f _ R) in I. destruct I as [I [l [L J]]].
    unfold field_report in L. destruct (d_sql f) as [s|] eqn:D; [|inversion L; subst l; destruct J].
    assert (E : s = ("${" ++ d_name f ++ "}")%string).
    { destruct (String.eqb (d_type f) "cumulative"); [inversion L; subst l; destruct J|]. unfold sql_errors in L. apply bind_ok in L. destruct L as [r [_ L]]. apply ok_inj in L. subst l.
      apply in_app_iff in J. destruct (String.eqb_spec s ("${" ++ d_name f ++ "}")) as [E|E]; [exact E|]. cbn [In] in J. exfalso. destruct J as [J|J]; [exact J|]. destruct r as [l|]; [|destruct J as [J|[]]; discriminate J].
      apply in_map_iff in J. destruct J as [x [J _]]. discriminate J. }
    induction m as [|m IH]; intros t X; [discriminate X|].
    unfold Checked_Model.expansion in X. cbn [raw_sql_query as_x xf_number_measure xf_sql xf_view xf_wrap] in X. rewrite (unsummed f NS), D in X.
    destruct (String.eqb s ""); [discriminate X|]. destruct (contains "{%" s); [discriminate X|].
    assert (F : In (d_name f) (fields_to_replace s)).
    { subst s. pose proof (Subst_Props.refs_ref (d_name f) "" B1 B2) as Q. rewrite append_nil_r in Q. rewrite Q. left. reflexivity. }
    destruct (sub_bad (fun n => g <- lookup_x (d_view f) n ;; raw_sql_query lookup_x m g) (d_view f) _ _ F NT) with (sql := s) as [e Y].
    { intros x. cbv beta. rewrite (value_ok m _ _ _ G). apply IH. }
    rewrite Y in X. discriminate X.
  Qed.
  (** The list of references that the view could not locate says the same of every field but a merged result, of which it says nothing. *)
  Theorem C85_located fuel f s l es : simple f -> d_sql f = Some s -> view_report get_field fuel f = Ok l -> field_report get_field fuel f = Ok es ->
    (is_merged_result get_field fuel f = Ok true -> l = []) /\
    (is_merged_result get_field fuel f = Ok false -> forall t, In t l <-> In (PRef t) es).
  Proof.
    intros SI D V F. unfold view_report in V. split; intros M; rewrite M in V; cbn [bind] in V; [inversion V; reflexivity|].
    apply bind_ok in V. destruct V as [r [G V]]. apply ok_inj in V. subst l. intros t. destruct SI as [N C].
    unfold field_report in F. rewrite D in F. destruct (String.eqb_spec (d_type f) "cumulative") as [E|E]; [specialize (C E); congruence|].
    unfold sql_errors in F. rewrite G in F. cbn [bind] in F. apply ok_inj in F. subst es. rewrite in_app_iff. split.
    - intros I. right. destruct r as [r|]; [apply in_map; exact I|destruct I].
    - intros [I|I]; [destruct (String.eqb _ _); [destruct I as [I|[]]; discriminate I|destruct I]|]. destruct r as [r|]; [|destruct I as [I|[]]; discriminate I].
      apply in_map_iff in I. destruct I as [x [E1 I]]. inversion E1; subst. exact I.
  Qed.
End C85.
Print Assumptions C85_reported.
Print Assumptions C85_resolved.
Print Assumptions C85_expands_partial.
Print Assumptions C85_answers.
Print Assumptions C85_true_alarm.
Print Assumptions C85_self.
Print Assumptions C85_located.

(** ** Where the statement is false of the code *)
(** A project with an order table, and circles in it *)
Definition dim (n sql : string) : dfield := fld "orders" n "string" false sql.
Definition shop : list dfield :=
  [ dim "state" "${TABLE}.state"; dim "place" "${country} || '-' || ${state}"; dim "country" "upper(${TABLE}.country)";
    fld "orders" "revenue" "sum" true "case when ${place} = 'X' then ${TABLE}.revenue end";
    fld "orders" "ratio" "number" true "${revenue} / 2" ].
Definition circle : list dfield := [ dim "ping" "${pong}"; dim "pong" "${ping}" ].
Definition mixed : list dfield := [ dim "state" "${TABLE}.state"; fld "orders" "revenue" "sum" true "${TABLE}.revenue"; fld "orders" "ratio" "number" true "${revenue} / 2"; dim "share" "${ratio} * 100" ].
Definition look (l : list dfield) (v t : string) : res dfield := match find (fun f => String.eqb (d_view f) v && String.eqb (d_name f) t) l with Some f => Ok f | None => Err AccessDenied end.
Definition same (f : dfield) (s : string) : string := s.
Lemma look_closed l : forall f t g, In f l -> look l (d_view f) t = Ok g -> In g l.
Proof. unfold look. intros f t g _ E. destruct (find _ l) as [h|] eqn:F; [|discriminate]. inversion E; subst. apply find_some in F. apply F. Qed.
Example C85_shop : (forall f, In f shop -> simple f) /\ report (look shop) 5 shop = Ok []
  /\ (forall f, In f shop -> written f) /\ (forall f g, In f shop -> ~ summed f -> refers (look shop) f g -> ~ summed g)
  /\ expansion (look shop) same id 5 (fld "orders" "revenue" "sum" true "case when ${place} = 'X' then ${TABLE}.revenue end") = Ok (RText "case when upper(orders.country) || '-' || orders.state = 'X' then orders.revenue end").
Proof.
  split; [intros f I; cbn [shop In] in I; do 5 (destruct I as [<-|I]; [split; [reflexivity|discriminate]|]); destruct I|].
  split; [vm_compute; reflexivity|].
  split; [intros f I; cbn [shop In] in I; do 5 (destruct I as [<-|I]; [eexists; split; [reflexivity|discriminate]|]); destruct I|].
  split; [|vm_compute; reflexivity].
  intros f g I NS [t [[NT [s [J K]]] G]] SG.
  assert (M : exists u, In u ["state"; "place"; "country"; "revenue"] /\ look shop "orders" u = Ok g).
  { cbn [shop In] in I. destruct I as [I|[I|[I|[I|[I|[]]]]]]; subst f; [| | | |destruct NS; split; reflexivity];
      unfold texts, dim, fld in J; cbn [d_sql In] in J; (destruct J as [J|[]]); subst s; vm_compute in K;
      repeat (match type of K with _ \/ _ => destruct K as [K|K] end; [first [exfalso; apply NT; symmetry; exact K | exists t; split; [subst t; cbn [In]; tauto|exact G]]|]); destruct K. }
  destruct M as [u [U L]]. cbn [In] in U. do 4 (destruct U as [<-|U]; [vm_compute in L; inversion L; subst g; destruct SG as [X _]; discriminate X|]). destruct U.
Qed.
(** The missing reference and the template are said, for the field and for a metric of type number built on it *)
Example C85_said :
  report (look [dim "a" "${b}"; dim "t" "{% x %}"]) 5 [dim "a" "${b}"; dim "t" "{% x %}"; fld "orders" "n" "number" true "${m}"; dim "t2" "${t}"; dim "a" "${a}"]
  = Ok [(dim "a" "${b}", PRef "b"); (dim "t" "{% x %}", PTemplate); (fld "orders" "n" "number" true "${m}", PRef "m"); (dim "a" "${a}", PSelf)].
Proof. vm_compute. reflexivity. Qed.

(** Two dimensions that refer to each other pass, and no query can write them. *)
Theorem C85_circle_refuted : (forall f, In f circle -> simple f) /\ (forall fuel, report (look circle) (S fuel) circle = Ok []) /\
  forall wrap alias m f, In f circle -> expansion (look circle) wrap alias m f = Err RecursionError.
Proof.
  split; [intros f I; cbn [circle In] in I; do 2 (destruct I as [<-|I]; [split; [reflexivity|discriminate]|]); destruct I|].
  split; [intros fuel; reflexivity|]. intros wrap alias m. induction m as [|m IH]; intros f I; [reflexivity|].
  assert (A := IH (dim "ping" "${pong}") (or_introl eq_refl)). assert (B := IH (dim "pong" "${ping}") (or_intror (or_introl eq_refl))).
  cbn [circle In] in I. destruct I as [<-|[<-|[]]].
  - change (expansion (look circle) wrap alias (S m) (dim "ping" "${pong}")) with (t <- substitute (fun n => g <- lookup_x (look circle) wrap alias "orders" n ;; raw_sql_query (lookup_x (look circle) wrap alias) m g) "orders" ["pong"] "${pong}" ;; Ok (RText (wrap (dim "ping" "${pong}") (collapse t)))).
    cbn [substitute]. change (String.eqb "pong" "TABLE") with false. cbv iota. change (lookup_x (look circle) wrap alias "orders" "pong") with (Ok (as_x wrap alias (dim "pong" "${ping}"))). cbn [bind]. unfold expansion in B. rewrite B. reflexivity.
  - change (expansion (look circle) wrap alias (S m) (dim "pong" "${ping}")) with (t <- substitute (fun n => g <- lookup_x (look circle) wrap alias "orders" n ;; raw_sql_query (lookup_x (look circle) wrap alias) m g) "orders" ["ping"] "${ping}" ;; Ok (RText (wrap (dim "pong" "${ping}") (collapse t)))).
    cbn [substitute]. change (String.eqb "ping" "TABLE") with false. cbv iota. change (lookup_x (look circle) wrap alias "orders" "ping") with (Ok (as_x wrap alias (dim "ping" "${pong}"))). cbn [bind]. unfold expansion in A. rewrite A. reflexivity.
Qed.
Print Assumptions C85_circle_refuted.
(** A dimension that refers to a metric of type number passes, and no query can write it. *)
Theorem C85_number_refuted : report (look mixed) 5 mixed = Ok [] /\ In (dim "share" "${ratio} * 100") mixed /\
  forall wrap alias m, expansion (look mixed) wrap alias (S (S m)) (dim "share" "${ratio} * 100") = Err QueryError.
Proof. split; [vm_compute; reflexivity|]. split; [cbn [mixed In]; tauto|]. intros wrap alias m. reflexivity. Qed.
Print Assumptions C85_number_refuted.
(** Fields of type number in a circle are not reported: with any stack, the validation itself fails. *)
Theorem C85_number_circle_refuted : forall measure fuel, let l := [fld "orders" "a" "number" measure "${b}"; fld "orders" "b" "number" measure "${a}"] in
  report (look l) fuel l = Err RecursionError.
Proof.
  intros measure fuel l. unfold report. cbn [l concatM].
  assert (Z : forall fuel, referenced_fields (look l) fuel "orders" (Some "${b}") = Err RecursionError /\ referenced_fields (look l) fuel "orders" (Some "${a}") = Err RecursionError).
  { induction fuel0 as [|n [A B]]; [split; reflexivity|]. split; cbn [referenced_fields].
    - change (fields_to_replace "${b}") with ["b"]. cbn [concatM]. change (String.eqb "b" "TABLE") with false. cbv iota. change (look l "orders" "b") with (Ok (fld "orders" "b" "number" measure "${a}")). cbn [d_type d_view d_sql fld]. change (String.eqb "number" "number") with true. cbv iota. change (templated (fld "orders" "b" "number" measure "${a}")) with false. cbv iota. rewrite B. reflexivity.
    - change (fields_to_replace "${a}") with ["a"]. cbn [concatM]. change (String.eqb "a" "TABLE") with false. cbv iota. change (look l "orders" "a") with (Ok (fld "orders" "a" "number" measure "${b}")). cbn [d_type d_view d_sql fld]. change (String.eqb "number" "number") with true. cbv iota. change (templated (fld "orders" "a" "number" measure "${b}")) with false. cbv iota. rewrite A. reflexivity. }
  unfold field_report at 1. cbn [fld d_sql d_type]. change (String.eqb "number" "cumulative") with false. cbv iota. unfold sql_errors, get_referenced. change (templated (fld "orders" "a" "number" measure "${b}")) with false. cbv iota. cbn [fld d_sql d_type d_sides d_view].
  change (String.eqb "number" "cumulative") with false. cbv iota. rewrite (proj1 (Z fuel)). reflexivity.
Qed.
Print Assumptions C85_number_circle_refuted.
Example C85_located_merged :
  let f := DField "orders" "both" "number" true (Some "${revenue} / ${gone}") None None None (Some true) in
  view_report (look shop) 5 f = Ok [] /\ field_report (look shop) 5 f = Ok [PRef "gone"].
Proof. vm_compute. split; reflexivity. Qed.
