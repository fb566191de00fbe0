(** Specification and property theorems: C86, the columns a funnel or a cumulative metric names are columns of what it reads. *)
From Coq Require Import List String Ascii Bool Lia.
From Verif Require Import PyBase PyList PyStr PyRefs Columns_Model.
Import ListNotations.
Local Open Scope string_scope.
Local Open Scope list_scope.

(** ** Specification *)
Definition summed (f : kfield) : Prop := k_measure f = true /\ k_type f = "number".
Definition distinct (f : kfield) : Prop := k_measure f = true /\ (k_type f = "sum_distinct" \/ k_type f = "average_distinct").
Definition template (f : kfield) : Prop := exists s, k_sql f = Some s /\ contains "{%" s = true.
Section Spec.
  Variable get_field : string -> string -> res kfield.
  Variable primary_key : string -> option kfield.
  Variable supported : bool.
  Definition refers (f g : kfield) : Prop := exists s t, k_sql f = Some s /\ In t (fields_to_replace s) /\ t <> "TABLE" /\ get_field (k_view f) t = Ok g.
  (** The aggregates a metric is made of: itself, or those of the fields a metric of type number refers to *)
  Inductive part : kfield -> kfield -> Prop :=
  | part_self a : ~ summed a -> part a a
  | part_ref m g a : summed m -> ~ template m -> refers m g -> part g a -> part m a.
  (** Those that count every row of their view once, by its primary key *)
  Definition keyed (apart : bool) (a : kfield) : Prop :=
    supported = true /\ apart = true /\ k_measure a = true /\ (k_type a = "sum" \/ k_type a = "average" \/ (k_type a = "count" /\ k_pk_count a = false)).
  (** The columns the SQL of one aggregate names *)
  Inductive names (apart : bool) (a : kfield) : string -> Prop :=
  | n_self : names apart a (k_alias a)
  | n_key p : keyed apart a -> primary_key (k_view a) = Some p -> names apart a (k_alias p)
  | n_filter t g : keyed apart a \/ distinct a -> In t (k_filters a) -> t <> "TABLE" -> get_field (k_view a) t = Ok g -> names apart a (k_alias g)
  | n_distinct s t g : distinct a -> k_key a = Some s -> In t (fields_to_replace s) -> t <> "TABLE" -> get_field (k_view a) t = Ok g -> names apart a (k_alias g)
  | n_default p : distinct a -> k_key a = None -> k_filters a = [] -> primary_key (k_view a) = Some p -> names apart a (k_alias p).
  (** The fields a query without groups writes for a field *)
  Inductive leaf : kfield -> kfield -> Prop :=
  | leaf_here f g : refers f g -> k_type g <> "number" -> leaf f g
  | leaf_through f h g : refers f h -> k_type h = "number" -> ~ template h -> leaf h g -> leaf f g.
  Definition column_of (f a : kfield) : Prop := (~ summed f /\ a = f) \/ (summed f /\ ~ template f /\ leaf f a).
End Spec.

Lemma summed_iff f : number_measure f = true <-> summed f.
Proof. unfold number_measure, summed. rewrite andb_true_iff, String.eqb_eq. tauto. Qed.
Lemma summed_no f : number_measure f = false <-> ~ summed f.
Proof. rewrite <- summed_iff. destruct (number_measure f); split; congruence. Qed.
Lemma template_iff f : marked f = true <-> template f.
Proof. unfold marked, template. destruct (k_sql f) as [s|]; split; try congruence; [intros H; exists s; split; [reflexivity|exact H]|intros [x [E H]]; congruence|intros [x [E _]]; discriminate E]. Qed.
Lemma template_no f : marked f = false <-> ~ template f.
Proof. rewrite <- template_iff. destruct (marked f); split; congruence. Qed.
Lemma okinj {A} (a b : A) : Ok a = Ok b -> a = b.
Proof. intros E. inversion E. reflexivity. Qed.
Lemma dedup_iff l x : In x (dedup l) <-> In x l.
Proof.
  unfold dedup, dedup_by. pose proof (dedup_by_aux_keys (fun s : string => s) [] l x) as H. rewrite !map_id in H.
  rewrite H. simpl. tauto.
Qed.
Lemma dedup_once l : NoDup (dedup l).
Proof. pose proof (dedup_by_aux_NoDup (fun x : string => x) [] l) as K. rewrite map_id in K. exact K. Qed.

Section C86.
  Variable get_field : string -> string -> res kfield.
  Variable primary_key : string -> option kfield.
  Variable supported has_median : bool.
  Notation used := (used get_field primary_key supported has_median).
  Notation part := (part get_field).
  Notation names := (names get_field primary_key supported).
  Notation leaf := (leaf get_field).
  Notation column_of := (column_of get_field).
  Notation refers := (refers get_field).
  Notation columns := (columns get_field).

  (** ** The columns named *)
  Lemma refs_In view ts cs c : concatM (alias_ref get_field view) ts = Ok cs -> (In c cs <-> exists t g, In t ts /\ t <> "TABLE" /\ get_field view t = Ok g /\ c = k_alias g).
  Proof.
    intros E. pose proof (concatM_ok_In _ _ _ E) as K. rewrite K. clear K. unfold alias_ref. split.
    - intros (t & zs & I & Z & J). destruct (String.eqb_spec t "TABLE") as [T|T]; [apply okinj in Z; subst zs; destruct J|].
      apply bind_ok in Z. destruct Z as [g [G Z]]. destruct (number_measure g); [discriminate Z|]. apply okinj in Z. subst zs. destruct J as [<-|[]]. exists t, g. auto.
    - intros (t & g & I & T & G & ->). destruct (concatM_ok_all _ _ _ E t I) as [zs Z]. exists t, zs. split; [exact I|]. split; [exact Z|].
      unfold alias_ref in Z. destruct (String.eqb_spec t "TABLE") as [T'|_]; [contradiction|]. rewrite G in Z. cbn [bind] in Z. destruct (number_measure g); [discriminate Z|]. apply okinj in Z. subst zs. left. reflexivity.
  Qed.
  Lemma own_names apart a us c : k_type a <> "cumulative" -> ~ summed a -> own_columns get_field primary_key supported has_median apart a = Ok us -> (In c us <-> names apart a c).
  Proof.
    intros NC NS E. unfold own_columns in E.
    assert (ONE : (forall x, names apart a x -> x = k_alias a) -> us = [k_alias a] -> (In c us <-> names apart a c)).
    { intros H ->. split; [intros [<-|[]]; constructor|]. intros N. left. symmetry. apply H. exact N. }
    assert (PLAIN : ~ keyed supported apart a -> ~ distinct a -> forall x, names apart a x -> x = k_alias a).
    { intros K D x N. destruct N as [|p KK|t g [KK|DD]|s t g DD|p DD]; try reflexivity; try contradiction. }
    assert (PK : keyed supported apart a -> ~ distinct a -> pk_columns get_field primary_key a = Ok us -> (In c us <-> names apart a c)).
    { intros KK ND P. unfold pk_columns in P. destruct (primary_key (k_view a)) as [p|] eqn:PKE; [|discriminate P]. apply bind_ok in P. destruct P as [fs [F P]]. apply okinj in P. subst us.
      pose proof (refs_In _ _ _ c F) as RI. cbn [In]. rewrite in_app_iff, RI. cbn [In]. split.
      - intros [<-|[(t & g & I & T & G & ->)|[<-|[]]]]; [apply n_self|eapply n_filter; eauto|eapply n_key; eauto].
      - intros N. destruct N as [|p' _ P'|t g _ I T G|s t g DD|p' DD]; [left; reflexivity| | |contradiction|contradiction].
        + right. right. left. congruence.
        + right. left. exists t, g. auto. }
    destruct (k_measure a) eqn:M; cbn [negb] in E.
    2: { apply ONE; [|apply okinj in E; auto]. apply PLAIN; [intros (_ & _ & X & _)|intros [X _]]; congruence. }
    destruct (mem (k_type a) ["sum"; "average"]) eqn:T1.
    { apply mem_In in T1. assert (ND : ~ distinct a) by (intros [_ [D|D]]; rewrite D in T1; destruct T1 as [X|[X|[]]]; discriminate X).
      destruct (supported && apart) eqn:SA.
      - apply andb_true_iff in SA. destruct SA as [SA1 SA2]. apply PK; [|exact ND|exact E]. split; [exact SA1|]. split; [exact SA2|]. split; [exact M|]. destruct T1 as [X|[X|[]]]; auto.
      - apply ONE; [|apply okinj in E; auto]. apply PLAIN; [|exact ND]. intros (A & B & _). rewrite A, B in SA. discriminate SA. }
    assert (N1 : k_type a <> "sum" /\ k_type a <> "average") by (pose proof (proj1 (mem_false _ _) T1) as X; split; intros Y; apply X; rewrite Y; cbn [In]; auto).
    destruct (String.eqb_spec (k_type a) "count") as [C|C].
    { assert (ND : ~ distinct a) by (intros [_ [D|D]]; congruence). destruct (supported && apart) eqn:SA; cbn [andb] in E.
      - apply andb_true_iff in SA. destruct SA as [SA1 SA2]. destruct (k_pk_count a) eqn:PC; cbn [negb] in E.
        + destruct (primary_key (k_view a)); [|discriminate E]. apply ONE; [|apply okinj in E; auto]. apply PLAIN; [|exact ND]. intros (_ & _ & _ & [X|[X|[_ X]]]); congruence.
        + apply PK; [|exact ND|exact E]. repeat split; auto.
      - apply ONE; [|apply okinj in E; auto]. apply PLAIN; [|exact ND]. intros (A & B & _). rewrite A, B in SA. discriminate SA. }
    assert (NK : ~ keyed supported apart a) by (intros (_ & _ & _ & [X|[X|[X _]]]); destruct N1; congruence).
    destruct (mem (k_type a) ["sum_distinct"; "average_distinct"]) eqn:T2.
    { apply mem_In in T2. assert (D : distinct a) by (split; [exact M|]; destruct T2 as [X|[X|[]]]; auto). destruct supported; [|discriminate E].
      unfold distinct_columns in E. destruct (k_key a) as [s|] eqn:KY.
      - apply bind_ok in E. destruct E as [fs [F E]]. apply bind_ok in E. destruct E as [ks [K E]]. apply okinj in E. subst us.
        cbn [In]. rewrite in_app_iff, (refs_In _ _ _ c F), (refs_In _ _ _ c K). split.
        + intros [<-|[(t & g & I & T & G & ->)|(t & g & I & T & G & ->)]]; [apply n_self|eapply n_filter; eauto|eapply n_distinct; eauto].
        + intros N. destruct N as [|p KK|t g _ I T G|s' t g _ KY' I T G|p _ KY']; [left; reflexivity|contradiction| | |congruence].
          * right. left. exists t, g. auto.
          * right. right. exists t, g. assert (s' = s) by congruence. subst s'. auto.
      - destruct (k_filters a) as [|x r] eqn:FA.
        + destruct (primary_key (k_view a)) as [p|] eqn:PKE; [|discriminate E]. apply okinj in E. subst us. split.
          * intros [<-|[<-|[]]]; [apply n_self|eapply n_default; eauto].
          * intros N. destruct N as [|p' KK|t g _ I|s t g _ KY'|p' _ _ _ P']; [left; reflexivity|contradiction|rewrite FA in I; destruct I|congruence|right; left; congruence].
        + apply bind_ok in E. destruct E as [fs [F E]]. apply okinj in E. subst us. unfold filter_columns in F. rewrite FA in F. cbn [In]. rewrite (refs_In _ _ _ c F). split.
          * intros [<-|(t & g & I & T & G & ->)]; [apply n_self|]. eapply n_filter; eauto. rewrite FA. exact I.
          * intros N. destruct N as [|p' KK|t g _ I T G|s t g _ KY'|p' _ _ FA']; [left; reflexivity|contradiction| |congruence|congruence].
            right. exists t, g. rewrite FA in I. auto. }
    assert (ND : ~ distinct a) by (intros [_ [X|X]]; rewrite X in T2; discriminate T2).
    apply ONE; [apply PLAIN; assumption|].
    destruct (mem (k_type a) ["count_distinct"; "max"; "min"]); [apply okinj in E; auto|].
    destruct (String.eqb (k_type a) "median"); [|discriminate E]. destruct has_median; [apply okinj in E; auto|discriminate E].
  Qed.
  Theorem C86_names fuel : forall apart m us c, used fuel apart m = Ok us -> (In c us <-> exists a, part m a /\ names apart a c).
  Proof.
    induction fuel as [|fuel IH]; intros apart m us c E; [discriminate E|]. cbn [Columns_Model.used] in E.
    destruct (String.eqb_spec (k_type m) "cumulative") as [C|NC]; [discriminate E|].
    destruct (number_measure m) eqn:N.
    - assert (SM : summed m) by (apply summed_iff; exact N). destruct (marked m) eqn:MK; [discriminate E|]. apply template_no in MK.
      destruct (k_sql m) as [s|] eqn:D; [|discriminate E]. pose proof (concatM_ok_In _ _ _ E) as K. rewrite K. clear K. split.
      + intros (t & zs & I & Z & J). destruct (String.eqb_spec t "TABLE") as [T|T]; [apply okinj in Z; subst zs; destruct J|].
        apply bind_ok in Z. destruct Z as [g [G Z]]. apply (IH apart g zs c Z) in J. destruct J as [a [P Q]]. exists a. split; [|exact Q].
        apply part_ref with g; auto. exists s, t. auto.
      + intros [a [P Q]]. inversion P as [a' X|m' g a' _ _ R PG]; subst; [contradiction|]. destruct R as (s' & t & D' & I & T & G). rewrite D in D'. injection D' as <-.
        destruct (concatM_ok_all _ _ _ E t I) as [zs Z]. exists t, zs. split; [exact I|]. split; [exact Z|]. cbv beta in Z.
        destruct (String.eqb_spec t "TABLE") as [T'|_]; [contradiction|]. rewrite G in Z. cbn [bind] in Z. apply (IH apart g zs c Z). exists a. auto.
    - assert (NS : ~ summed m) by (apply summed_no; exact N). rewrite (own_names apart m us c NC NS E). split.
      + intros Q. exists m. split; [apply part_self; exact NS|exact Q].
      + intros [a [P Q]]. inversion P; subst; [exact Q|contradiction].
  Qed.

  (** ** The columns provided *)
  Lemma leaves_In fuel : forall f ls a, leaves get_field fuel (k_view f) (k_sql f) = Ok ls -> (In a ls <-> leaf f a).
  Proof.
    induction fuel as [|fuel IH]; intros f ls a E; [discriminate E|]. cbn [leaves] in E. destruct (k_sql f) as [s|] eqn:D.
    2: { apply okinj in E. subst ls. split; [intros []|]. intros L. inversion L as [f' g (s & t & D' & _)|f' h g (s & t & D' & _)]; subst; congruence. }
    pose proof (concatM_ok_In _ _ _ E) as K. rewrite K. clear K. split.
    - intros (t & zs & I & Z & J). destruct (String.eqb_spec t "TABLE") as [T|T]; [apply okinj in Z; subst zs; destruct J|].
      destruct (get_field (k_view f) t) as [g|e] eqn:G; [|destruct e; try discriminate Z; apply okinj in Z; subst zs; destruct J].
      assert (R : refers f g) by (exists s, t; auto). destruct (String.eqb_spec (k_type g) "number") as [N|N].
      + destruct (marked g) eqn:MK; [apply okinj in Z; subst zs; destruct J|]. apply template_no in MK. apply leaf_through with g; auto. apply (IH g zs a Z). exact J.
      + apply okinj in Z. subst zs. destruct J as [<-|[]]. apply leaf_here; assumption.
    - intros L.
      assert (H : exists t g, In t (fields_to_replace s) /\ t <> "TABLE" /\ get_field (k_view f) t = Ok g /\ ((k_type g <> "number" /\ a = g) \/ (k_type g = "number" /\ ~ template g /\ leaf g a))).
      { inversion L as [f' g R N|f' h g R N NT LG]; subst; destruct R as (s' & t & D' & I & T & G); assert (s' = s) by congruence; subst s'; exists t; eexists; eauto 10. }
      destruct H as (t & g & I & T & G & H). destruct (concatM_ok_all _ _ _ E t I) as [zs Z]. exists t, zs. split; [exact I|]. split; [exact Z|]. cbv beta in Z.
      destruct (String.eqb_spec t "TABLE") as [T'|_]; [contradiction|]. rewrite G in Z. destruct (String.eqb_spec (k_type g) "number") as [N|N].
      + destruct H as [[X _]|[_ [NT LG]]]; [contradiction|]. apply template_no in NT. rewrite NT in Z. apply (IH g zs a Z). exact LG.
      + destruct H as [[_ ->]|[X _]]; [|contradiction]. apply okinj in Z. subst zs. left. reflexivity.
  Qed.
  (** The inner query has the columns of the fields it is asked for, the aggregates of the metrics of type number among them,
      and each name once. *)
  Theorem C86_columns fuel fs cs : columns fuel fs = Ok cs ->
    NoDup cs /\ forall c, In c cs <-> exists f a, In f fs /\ column_of f a /\ ~ template a /\ c = k_alias a.
  Proof.
    unfold Columns_Model.columns. intros E. apply bind_ok in E. destruct E as [l [L E]]. apply okinj in E. subst cs. split; [apply dedup_once|]. intros c. rewrite dedup_iff.
    pose proof (concatM_ok_In _ _ _ L) as K. rewrite K. clear K.
    assert (PL : forall g, In c (plain_column g) <-> ~ template g /\ c = k_alias g).
    { intros g. unfold plain_column. rewrite <- template_no. destruct (marked g); split; [intros []|intros [X _]; discriminate X|intros [<-|[]]; auto|intros [_ ->]; left; reflexivity]. }
    assert (P : forall f zs, provided get_field fuel f = Ok zs -> (In c zs <-> exists a, column_of f a /\ ~ template a /\ c = k_alias a)).
    { intros f zs Z. unfold provided in Z. unfold Columns_Props.column_of. destruct (number_measure f) eqn:N.
      - assert (SM : summed f) by (apply summed_iff; exact N). destruct (marked f) eqn:MK.
        + apply okinj in Z. subst zs. apply template_iff in MK. split; [intros []|]. intros [a [[[X _]|[_ [X _]]] _]]; contradiction.
        + apply template_no in MK. apply bind_ok in Z. destruct Z as [ls [LS Z]]. apply okinj in Z. subst zs. rewrite in_flat_map. split.
          * intros [a [I J]]. apply PL in J. exists a. split; [right|exact J]. apply (leaves_In fuel f ls a LS) in I. auto.
          * intros [a [[[X _]|[_ [_ X]]] J]]; [contradiction|]. exists a. split; [apply (leaves_In fuel f ls a LS); exact X|apply PL; exact J].
      - assert (NS : ~ summed f) by (apply summed_no; exact N). apply okinj in Z. subst zs. rewrite PL. split.
        + intros J. exists f. auto.
        + intros [a [[[_ ->]|[X _]] J]]; [exact J|contradiction]. }
    split.
    - intros (f & zs & I & Z & J). apply (P f zs Z) in J. destruct J as [a J]. exists f, a. auto.
    - intros (f & a & I & J). destruct (concatM_ok_all _ _ _ L f I) as [zs Z]. exists f, zs. split; [exact I|]. split; [exact Z|]. apply (P f zs Z). exists a. exact J.
  Qed.
  Lemma part_plain m a : part m a -> ~ summed a.
  Proof. intros P. induction P; assumption. Qed.
  Lemma part_column m a : part m a -> (k_type a <> "number" \/ a = m) -> column_of m a.
  Proof.
    intros P. induction P as [a NS|m g a SM NT R P IH]; intros H; [left; auto|].
    right. split; [exact SM|]. split; [exact NT|].
    assert (TA : k_type a <> "number").
    { destruct H as [H|H]; [exact H|]. subst a. destruct (part_plain _ _ P SM). }
    destruct (IH (or_introl TA)) as [[NS ->]|[SG [TG LG]]]; [apply leaf_here; assumption|]. apply leaf_through with g; auto. apply SG.
  Qed.

  (** ** Cumulative metrics: every column the accumulation names is there, but for distinct keys. *)
  Theorem C86_cumulative_partial fuel fuel' m ds cs us : cumulative_columns get_field fuel m ds = Ok cs -> used fuel' false m = Ok us ->
    (forall a, part m a -> ~ distinct a /\ ~ template a /\ (k_type a <> "number" \/ a = m)) -> incl us cs.
  Proof.
    intros C U H c I. apply (C86_names fuel' false m us c U) in I. destruct I as [a [P Q]]. destruct (H a P) as [ND [NT TY]].
    assert (c = k_alias a).
    { destruct Q as [|p (_ & X & _)|t g [(_ & X & _)|DD]|s t g DD|p DD]; try reflexivity; try discriminate X; contradiction. }
    subst c. apply (proj2 (C86_columns fuel _ cs C)). exists m, a. split; [apply in_or_app; right; left; reflexivity|]. split; [apply part_column; assumption|]. auto.
  Qed.

  (** ** Funnels *)
  Notation funnel_columns := (funnel_columns get_field primary_key).
  Lemma added_spec ms : forall seen ks, added_keys primary_key seen ms = Ok ks ->
    (forall m, In m ms -> exists p, primary_key (k_view m) = Some p /\ (In (k_id p) seen \/ exists f, In f (ks ++ ms) /\ k_id f = k_id p)) /\
    (forall f, In f ks -> ~ In (k_id f) seen /\ exists m, In m ms /\ primary_key (k_view m) = Some f).
  Proof.
    induction ms as [|m ms IH]; intros seen ks E; cbn [added_keys] in E.
    { apply okinj in E. subst ks. split; [intros m []|intros f []]. }
    destruct (primary_key (k_view m)) as [p|] eqn:P; [|discriminate E].
    destruct (mem (k_id p) seen) eqn:S.
    - apply mem_In in S. destruct (IH _ _ E) as [A B]. split.
      + intros x [<-|X]; [exists p; split; [exact P|left; exact S]|]. destruct (A x X) as [q [Q [[J|J]|[f [F G]]]]]; exists q; (split; [exact Q|]).
        * right. exists m. split; [apply in_or_app; right; left; reflexivity|exact J].
        * left. exact J.
        * right. exists f. split; [|exact G]. apply in_app_iff in F. apply in_or_app. destruct F as [F|F]; [left; exact F|right; right; exact F].
      + intros f F. destruct (B f F) as [X [y [Y Z]]]. split; [intros J; apply X; right; exact J|]. exists y. split; [right; exact Y|exact Z].
    - apply mem_false in S. apply bind_ok in E. destruct E as [ks' [E' E]]. apply okinj in E. subst ks. destruct (IH _ _ E') as [A B]. split.
      + intros x [<-|X]; [exists p; split; [exact P|right; exists p; split; [left; reflexivity|reflexivity]]|].
        destruct (A x X) as [q [Q [[J|[J|J]]|[f [F G]]]]]; exists q; (split; [exact Q|]).
        * right. exists m. split; [right; apply in_or_app; right; left; reflexivity|exact J].
        * right. exists p. split; [left; reflexivity|exact J].
        * left. exact J.
        * right. exists f. split; [|exact G]. apply in_app_iff in F. right. apply in_or_app. destruct F as [F|F]; [left; exact F|right; right; exact F].
      + intros f [<-|F]; [split; [exact S|]; exists m; split; [left; reflexivity|exact P]|]. destruct (B f F) as [X [y [Y Z]]].
        split; [intros J; apply X; right; right; exact J|]. exists y. split; [right; exact Y|exact Z].
  Qed.
  (** What is asked for, the event date, the link, the fields of the steps: all are columns of the base, each once. *)
  Theorem C86_funnel_plain fuel seen ms ds cs : funnel_columns fuel seen ms ds = Ok cs ->
    NoDup cs /\ forall d, In d ds -> ~ summed d -> ~ template d -> In (k_alias d) cs.
  Proof.
    unfold Columns_Model.funnel_columns. intros E. apply bind_ok in E. destruct E as [ks [K E]]. destruct (C86_columns fuel _ cs E) as [N C]. split; [exact N|].
    intros d D NS NT. apply C. exists d, d. split; [apply in_or_app; left; exact D|]. split; [left; auto|auto].
  Qed.
  (** The primary key of the view of a metric is a column, unless the query names it somewhere else than in its dimensions. *)
  Theorem C86_funnel_key fuel seen ms ds cs m : funnel_columns fuel seen ms ds = Ok cs -> In m ms ->
    exists p, primary_key (k_view m) = Some p /\
      ((forall f, In f (ds ++ ms) \/ (exists v, primary_key v = Some f) -> k_id f = k_id p -> f = p) -> ~ summed p -> ~ template p ->
       In p ds \/ ~ In (k_id p) seen -> In (k_alias p) cs).
  Proof.
    unfold Columns_Model.funnel_columns. intros E M. apply bind_ok in E. destruct E as [ks [K E]]. destruct (C86_columns fuel _ cs E) as [_ C]. destruct (added_spec ms _ _ K) as [A B].
    destruct (A m M) as [p [P H]]. exists p. split; [exact P|]. intros SAME NS NT W.
    assert (IP : In p (ds ++ ks ++ ms)).
    { destruct W as [W|W]; [apply in_or_app; left; exact W|]. destruct H as [H|[f [F G]]].
      - apply in_app_iff in H. destruct H as [H|H]; [|contradiction]. apply in_map_iff in H. destruct H as [d [G D]]. apply in_or_app. left.
        rewrite <- (SAME d (or_introl (in_or_app _ _ _ (or_introl D))) G). exact D.
      - apply in_or_app. right. assert (f = p); [|subst f; exact F]. apply SAME; [|exact G]. apply in_app_iff in F. destruct F as [F|F]; [|left; apply in_or_app; right; exact F].
        right. destruct (B f F) as [_ [y [_ Z]]]. exists (k_view y). exact Z. }
    apply C. exists p, p. split; [exact IP|]. split; [left; auto|auto].
  Qed.
  (** A metric without filters and distinct keys, of aggregates of its own view, finds every column it names. *)
  Theorem C86_funnel_partial fuel fuel' seen ms ds cs m us : funnel_columns fuel seen ms ds = Ok cs -> In m ms -> used fuel' true m = Ok us ->
    (forall a, part m a -> ~ distinct a /\ ~ template a /\ (k_type a <> "number" \/ a = m) /\ (keyed supported true a -> k_filters a = [] /\ k_view a = k_view m)) ->
    (forall p, primary_key (k_view m) = Some p -> ~ summed p /\ ~ template p /\ (In p ds \/ ~ In (k_id p) seen) /\
       forall f, In f (ds ++ ms) \/ (exists v, primary_key v = Some f) -> k_id f = k_id p -> f = p) ->
    incl us cs.
  Proof.
    intros F M U H PK c I. apply (C86_names fuel' true m us c U) in I. destruct I as [a [P Q]]. destruct (H a P) as [ND [NT [TY KY]]].
    destruct Q as [|p KK PE|t g [KK|DD] J|s t g DD|p DD]; try contradiction.
    - unfold Columns_Model.funnel_columns in F. apply bind_ok in F. destruct F as [ks [_ E]]. apply (proj2 (C86_columns fuel _ cs E)). exists m, a.
      split; [apply in_or_app; right; apply in_or_app; right; exact M|]. split; [apply part_column; assumption|auto].
    - destruct (KY KK) as [_ V]. rewrite V in PE. destruct (C86_funnel_key fuel seen ms ds cs m F M) as [p' [P' W]]. assert (p' = p) by congruence. subst p'.
      destruct (PK p PE) as [NS [NT' [D SAME]]]. exact (W SAME NS NT' D).
    - destruct (KY KK) as [X _]. rewrite X in J. destruct J.
  Qed.
  (** The names of the result: one column each exactly when no metric or dimension is there twice. *)
  Theorem C86_result ms dims : NoDup (funnel_names ms dims) <->
    NoDup (map k_alias (ms ++ dims)) /\ (forall f, In f (ms ++ dims) -> k_alias f <> "step" /\ k_alias f <> "step_order").
  Proof.
    unfold funnel_names. split.
    - intros N. inversion N as [|x l A B]; subst. inversion B as [|y l' C D]; subst. split; [exact D|]. intros f F. split; intros X.
      + apply A. right. rewrite <- X. apply in_map. exact F.
      + apply C. rewrite <- X. apply in_map. exact F.
    - intros [N H]. constructor; [|constructor; [|exact N]].
      + intros [X|X]; [discriminate X|]. apply in_map_iff in X. destruct X as [f [X F]]. destruct (H f F) as [Y _]. contradiction.
      + intros X. apply in_map_iff in X. destruct X as [f [X F]]. destruct (H f F) as [_ Y]. contradiction.
  Qed.
End C86.
Print Assumptions C86_names.
Print Assumptions C86_columns.
Print Assumptions C86_cumulative_partial.
Print Assumptions C86_funnel_plain.
Print Assumptions C86_funnel_key.
Print Assumptions C86_funnel_partial.
Print Assumptions C86_result.

(** ** Where the statement is false of the code *)
(** A condition on a metric that is also asked for: its column is in the result twice, and the condition names it. *)
Theorem C86_having_refuted : forall ms h dims, In h ms -> ~ NoDup (funnel_names (ms ++ [h]) dims).
Proof.
  intros ms h dims H N. apply (proj1 (C86_result _ _)) in N. destruct N as [N _]. rewrite <- app_assoc, map_app in N. cbn [app map] in N.
  apply in_split in H. destruct H as [a [b ->]]. rewrite map_app in N. cbn [map] in N. rewrite <- app_assoc in N. cbn [app] in N.
  apply NoDup_remove_2 in N. apply N. apply in_or_app. right. apply in_or_app. right. left. reflexivity.
Qed.
Print Assumptions C86_having_refuted.

Definition ordk (n type : string) (measure : bool) (sql : string) (filters : list string) (key : option string) : kfield :=
  KField ("orders." ++ n) "orders" ("orders_" ++ n) measure type (Some sql) filters key false.
Definition order_id : kfield := ordk "order_id" "string" false "${TABLE}.id" [] None.
Definition is_new : kfield := ordk "is_new" "string" false "${TABLE}.new" [] None.
Definition link_id : kfield := ordk "customer_id" "string" false "${TABLE}.customer_id" [] None.
Definition revenue : kfield := ordk "revenue" "sum" true "${TABLE}.revenue" [] None.
Definition new_revenue : kfield := ordk "new_revenue" "sum" true "case when ${is_new} = 'yes' then ${TABLE}.revenue end" ["is_new"] None.
Definition per_visit : kfield := ordk "per_visit" "number" true "${revenue} / ${visits.visits}" [] None.
Definition by_link : kfield := ordk "by_link" "sum_distinct" true "${TABLE}.fee" [] (Some "${customer_id}").
Definition visit_id : kfield := KField "visits.id" "visits" "visits_id" false "string" (Some "${TABLE}.id") [] None false.
Definition visits : kfield := KField "visits.visits" "visits" "visits_visits" true "count" (Some "${visits.id}") [] None false.
Definition shop (v t : string) : res kfield :=
  match find (fun f => String.eqb (k_id f) (if contains "." t then t else (v ++ "." ++ t)%string)) [order_id; is_new; link_id; revenue; new_revenue; per_visit; by_link; visit_id; visits] with
  | Some f => Ok f | None => Err AccessDenied end.
Definition shop_key (v : string) : option kfield := if String.eqb v "orders" then Some order_id else if String.eqb v "visits" then Some visit_id else None.
(** The plain case, and a case of a metric of type number, meet the hypotheses *)
Example C86_plain_case : used shop shop_key true true 5 true revenue = Ok ["orders_revenue"; "orders_order_id"]
  /\ funnel_columns shop shop_key 5 ["orders.revenue"] [revenue] [link_id] = Ok ["orders_customer_id"; "orders_order_id"; "orders_revenue"]
  /\ used shop shop_key true true 5 false per_visit = Ok ["orders_revenue"; "visits_visits"]
  /\ cumulative_columns shop 5 per_visit [is_new] = Ok ["orders_is_new"; "orders_revenue"; "visits_visits"].
Proof. vm_compute. repeat split; reflexivity. Qed.
Lemma lacks c cs us : (mem c us && negb (mem c cs) = true) -> In c us /\ ~ In c cs.
Proof. intros H. apply andb_true_iff in H. destruct H as [A B]. apply mem_In in A. apply negb_true_iff in B. split; [exact A|apply mem_false; exact B]. Qed.
(** A condition on the primary key (in the fields of the query, not in its dimensions) takes the column away that the metric counts by. *)
Theorem C86_key_condition_refuted : exists us cs, used shop shop_key true true 5 true revenue = Ok us
  /\ funnel_columns shop shop_key 5 ["orders.revenue"; "orders.order_id"] [revenue] [link_id] = Ok cs /\ In "orders_order_id" us /\ ~ In "orders_order_id" cs.
Proof. eexists. eexists. split; [vm_compute; reflexivity|]. split; [vm_compute; reflexivity|]. apply lacks. reflexivity. Qed.
Print Assumptions C86_key_condition_refuted.
(** A metric with a filter names the field of the filter, which is no column. *)
Theorem C86_filter_refuted : exists us cs, used shop shop_key true true 5 true new_revenue = Ok us
  /\ funnel_columns shop shop_key 5 ["orders.new_revenue"] [new_revenue] [link_id] = Ok cs /\ In "orders_is_new" us /\ ~ In "orders_is_new" cs.
Proof. eexists. eexists. split; [vm_compute; reflexivity|]. split; [vm_compute; reflexivity|]. apply lacks. reflexivity. Qed.
Print Assumptions C86_filter_refuted.
(** A metric of type number names the primary keys of the views of its parts, of which only its own is a column. *)
Theorem C86_two_views_refuted : exists us cs, used shop shop_key true true 5 true per_visit = Ok us
  /\ funnel_columns shop shop_key 5 ["orders.per_visit"] [per_visit] [link_id] = Ok cs /\ In "visits_id" us /\ ~ In "visits_id" cs.
Proof. eexists. eexists. split; [vm_compute; reflexivity|]. split; [vm_compute; reflexivity|]. apply lacks. reflexivity. Qed.
Print Assumptions C86_two_views_refuted.
(** A distinct key is no column, neither for a cumulative metric nor for a funnel. *)
Theorem C86_distinct_refuted : exists us us' cs cs', used shop shop_key true true 5 false by_link = Ok us
  /\ cumulative_columns shop 5 by_link [is_new] = Ok cs /\ In "orders_customer_id" us /\ ~ In "orders_customer_id" cs
  /\ used shop shop_key true true 5 true by_link = Ok us' /\ funnel_columns shop shop_key 5 ["orders.by_link"] [by_link] [is_new] = Ok cs' /\ In "orders_customer_id" us' /\ ~ In "orders_customer_id" cs'.
Proof.
  do 4 eexists. split; [vm_compute; reflexivity|]. split; [vm_compute; reflexivity|]. 
  assert (A : forall P Q R : Prop, P /\ Q -> R -> P /\ Q /\ R) by tauto. apply A; [apply lacks; reflexivity|].
  split; [vm_compute; reflexivity|]. split; [vm_compute; reflexivity|]. apply lacks. reflexivity.
Qed.
Print Assumptions C86_distinct_refuted.
