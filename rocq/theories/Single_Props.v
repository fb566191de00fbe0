(** Specification and property theorems: C36, selected and grouped columns; C42, the checks before SQL is produced. *)
From Coq Require Import List String Ascii Bool Lia.
From Verif Require Import PyBase PyList PyStr PySort OrderBy_Model Single_Model.
Import ListNotations.
Local Open Scope string_scope.
Local Open Scope list_scope.

(** * C36 *)
Section C36.
  Variable get_field : string -> res sfield.
  (** the entry that groups a column: its alias in BigQuery, its text elsewhere *)
  Definition groups (qt : string) (c : column) : string := if String.eqb qt "BIGQUERY" then co_alias c else co_sql c.

  (** With a GROUP BY: one column per requested field, in order; when the dimensions are not measures and the
      metrics are, the columns that are not aggregates are exactly the grouped ones. *)
  Theorem C36_grouped : forall qt fuel dims metrics cols g,
    select_and_group get_field qt false fuel dims metrics = Ok (cols, g) ->
    Forall2 (fun n c => exists f, get_field n = Ok f /\ co_alias c = (sf_view f ++ "_" ++ sf_name f)%string /\ co_sql c = sf_sql f) (dims ++ metrics) cols
    /\ ((forall n f, In n dims -> get_field n = Ok f -> sf_measure f = false) ->
        (forall n f, In n metrics -> get_field n = Ok f -> sf_measure f = true) ->
        g = map (groups qt) (filter (fun c => negb (co_aggregate c)) cols)
        /\ List.length (filter co_aggregate cols) = List.length metrics).
  Proof.
    intros qt fuel dims metrics cols g H. unfold select_and_group in H. apply bind_ok in H. destruct H as [s [S H]]. apply bind_ok in H. destruct H as [g' [G H]].
    injection H as -> ->. unfold grouped_columns, group_by in *. apply mapM_ok in S. apply mapM_ok in G. split.
    - clear G. induction S as [|n c l cols H S IH]; constructor; auto. apply bind_ok in H. destruct H as [f [F E]]. injection E as <-. exists f. auto.
    - intros D M. revert cols S. induction G as [|n e dims g H G IH]; intros cols S.
      + cbn [app] in S. assert (A : forall c, In c cols -> co_aggregate c = true).
        { clear D. revert M. induction S as [|n c l cols H S IH]; intros M c' I; [destruct I|]. destruct I as [<-|I].
          - apply bind_ok in H. destruct H as [f [F E]]. injection E as <-. cbn. eapply M; eauto. now left.
          - apply IH; auto. intros n' f' I'. apply M. now right. }
        apply Forall2_length in S. split.
        * clear S. induction cols as [|c cols IH]; [reflexivity|]. cbn [filter]. rewrite (A c) by now left. cbn. apply IH. intros c' I. apply A. now right.
        * rewrite S. clear S. induction cols as [|c cols IH]; [reflexivity|]. cbn [filter]. rewrite (A c) by now left. cbn. f_equal. apply IH. intros c' I. apply A. now right.
      + cbn [app] in S. inversion S as [|? c ? cols' H' S']; subst. apply bind_ok in H. destruct H as [f [F E]]. injection E as <-.
        rewrite F in H'. injection H' as <-. assert (Mf : sf_measure f = false) by (eapply D; eauto; now left).
        cbn [filter co_aggregate]. rewrite Mf. cbn [negb map]. destruct (IH) with (cols := cols') as [I1 I2]; auto.
        { intros n' f' I'. apply D. now right. }
        split; auto. rewrite <- I1. reflexivity.
  Qed.

  (** the columns of a field at row level *)
  Inductive reaches : string -> sfield -> Prop :=
  | reach_self n f s : get_field n = Ok f -> sf_raw f = RawSql s -> reaches n f
  | reach_ref n f l r g : get_field n = Ok f -> sf_raw f = RawRefs l -> In r l -> reaches r g -> reaches n g.
  Lemma raw_columns_spec fuel : forall n f cols, get_field n = Ok f -> raw_columns get_field fuel f = Ok cols ->
    forall c, In c cols -> exists g s, reaches n g /\ sf_raw g = RawSql s /\ c = Column s (alias g) false.
  Proof.
    induction fuel as [|fuel IH]; intros n f cols F H c I.
    - cbn in H. destruct (sf_raw f) as [s| |] eqn:R; [|discriminate H|]; injection H as <-; [|destruct I].
      destruct I as [<-|[]]. exists f, s. split; auto. now apply (reach_self n f s).
    - cbn in H. destruct (sf_raw f) as [s|l|] eqn:R.
      + injection H as <-. destruct I as [<-|[]]. exists f, s. split; auto. now apply (reach_self n f s).
      + pose proof (concatM_ok_In _ _ _ H c) as X. apply X in I. destruct I as [r [zs [J [E I]]]]. apply (proj1 (sort_str_In l r)) in J. apply bind_ok in E. destruct E as [g [G E]].
        destruct (IH r g zs G E c I) as [h [s [A [B C]]]]. exists h, s. split; auto. eapply reach_ref; eauto.
      + injection H as <-. destruct I.
  Qed.

  (** Without GROUP BY: nothing is grouped or aggregated, aliases are distinct, every column belongs to a requested
      field or to one it refers to, and every requested field that has SQL of its own has its column. *)
  Theorem C36_ungrouped : forall qt fuel dims metrics cols g,
    select_and_group get_field qt true fuel dims metrics = Ok (cols, g) ->
    g = [] /\ (forall c, In c cols -> co_aggregate c = false) /\ NoDup (map co_alias cols)
    /\ (forall c, In c cols -> exists n h s, In n (dims ++ metrics) /\ reaches n h /\ sf_raw h = RawSql s /\ co_sql c = s /\ co_alias c = (sf_view h ++ "_" ++ sf_name h)%string)
    /\ (forall n f s, In n (dims ++ metrics) -> get_field n = Ok f -> sf_raw f = RawSql s -> In (sf_view f ++ "_" ++ sf_name f)%string (map co_alias cols)).
  Proof.
    intros qt fuel dims metrics cols g H. unfold select_and_group in H. apply bind_ok in H. destruct H as [s [S H]]. injection H as <- <-.
    unfold ungrouped_columns in S. apply bind_ok in S. destruct S as [l [L E]]. injection E as <-.
    assert (A : forall c, In c (dedup_by co_alias l) -> exists n h s, In n (dims ++ metrics) /\ reaches n h /\ sf_raw h = RawSql s /\ c = Column s (alias h) false).
    { intros c I. apply dedup_by_aux_In in I. destruct I as [I _]. apply (concatM_ok_In _ _ _ L) in I. destruct I as [n [zs [N [E I]]]].
      apply bind_ok in E. destruct E as [f [F E]]. destruct (raw_columns_spec fuel n f zs F E c I) as [h [s [B [C D]]]]. exists n, h, s. auto. }
    split; [reflexivity|]. split; [|split; [apply dedup_by_aux_NoDup|split]].
    - intros c I. destruct (A c I) as [n [h [s [_ [_ [_ ->]]]]]]. reflexivity.
    - intros c I. destruct (A c I) as [n [h [s [N [B [C ->]]]]]]. exists n, h, s. auto.
    - intros n f s N F R. apply dedup_by_aux_keys. split; [|intros []]. apply in_map_iff. exists (Column s (alias f) false). split; [reflexivity|].
      apply (concatM_ok_In _ _ _ L). exists n. exists [Column s (alias f) false]. split; auto. split; [|now left]. rewrite F. cbn [bind]. destruct fuel; cbn; now rewrite R.
  Qed.

  (** Aliases are distinct when the requested fields' aliases are. *)
  Theorem C36_aliases_partial : forall qt fuel dims metrics cols g,
    select_and_group get_field qt false fuel dims metrics = Ok (cols, g) -> NoDup (dims ++ metrics) ->
    (forall n m f h, In n (dims ++ metrics) -> In m (dims ++ metrics) -> get_field n = Ok f -> get_field m = Ok h ->
       (sf_view f ++ "_" ++ sf_name f)%string = (sf_view h ++ "_" ++ sf_name h)%string -> n = m) ->
    NoDup (map co_alias cols).
  Proof.
    intros qt fuel dims metrics cols g H N D. apply C36_grouped in H. destruct H as [F _]. revert N D. generalize (dims ++ metrics) F. clear. intros l F.
    induction F as [|n c l cols [f [G [A _]]] F IH]; intros N D; [constructor|]. inversion N as [|? ? NI N']; subst. cbn [map]. constructor.
    - intros I. apply in_map_iff in I. destruct I as [c' [E I]]. destruct (Forall2_In_r _ _ _ F c' I) as [m [J [h [G' [A' _]]]]].
      apply NI. replace n with m; auto. symmetry. eapply D; eauto; [now left|now right|]. congruence.
    - apply IH; auto. intros; eapply D; eauto; now right.
  Qed.
End C36.
Print Assumptions C36_grouped.
Print Assumptions C36_ungrouped.
Print Assumptions C36_aliases_partial.

(** within one view different names have different aliases *)
Theorem C36_same_view : forall f g, sf_view f = sf_view g -> alias f = alias g -> sf_name f = sf_name g.
Proof. intros f g E H. unfold alias in H. rewrite E in H. apply append_inj_l in H. now apply append_inj_l in H. Qed.
Print Assumptions C36_same_view.

Definition example_field (n : string) : res sfield :=
  if String.eqb n "orders.id" then Ok (SField "orders" "id" false false true "orders.id" (RawSql "orders.id"))
  else if String.eqb n "ORDERS.ID" then Ok (SField "orders" "id" false false true "orders.id" (RawSql "orders.id"))
  else if String.eqb n "orders.region" then Ok (SField "orders" "region" false false false "orders.region" (RawSql "orders.region"))
  else if String.eqb n "orders.total" then Ok (SField "orders" "total" true false false "SUM(orders.rev)" (RawSql "orders.rev"))
  else if String.eqb n "orders.n" then Ok (SField "orders" "n" true false false "COUNT(orders.id)" (RawSql "orders.id"))
  else if String.eqb n "orders.aov" then Ok (SField "orders" "aov" true false false "SUM(orders.rev) / COUNT(orders.id)" (RawRefs ["orders.total"; "orders.n"]))
  else if String.eqb n "customers.ltv" then Ok (SField "customers" "ltv" true false false "SUM(customers.ltv)" (RawSql "customers.ltv"))
  else if String.eqb n "a_b.c" then Ok (SField "a_b" "c" false false false "a_b.c" (RawSql "a_b.c"))
  else if String.eqb n "a.b_c" then Ok (SField "a" "b_c" false false false "a.b_c" (RawSql "a.b_c"))
  else Err KeyError.
Example grouped_example : select_and_group example_field "BIGQUERY" false 5 ["orders.region"] ["orders.total"; "orders.aov"]
  = Ok ([Column "orders.region" "orders_region" false; Column "SUM(orders.rev)" "orders_total" true; Column "SUM(orders.rev) / COUNT(orders.id)" "orders_aov" true], ["orders_region"]).
Proof. reflexivity. Qed.
Example ungrouped_example : select_and_group example_field "SNOWFLAKE" true 5 ["orders.id"] ["orders.aov"; "orders.total"]
  = Ok ([Column "orders.id" "orders_id" false; Column "orders.id" "orders_n" false; Column "orders.rev" "orders_total" false], []).
Proof. reflexivity. Qed.

(** Aliases can coincide: two spellings of one field pass the check of the names, and so do fields of two views. *)
Theorem C36_aliases_refuted :
  (exists cols g, repeated ["orders.id"; "ORDERS.ID"] = false
     /\ select_and_group example_field "SNOWFLAKE" false 5 ["orders.id"; "ORDERS.ID"] [] = Ok (cols, g) /\ ~ NoDup (map co_alias cols))
  /\ (exists cols g, repeated ["a_b.c"; "a.b_c"] = false
     /\ select_and_group example_field "SNOWFLAKE" false 5 ["a_b.c"; "a.b_c"] [] = Ok (cols, g) /\ ~ NoDup (map co_alias cols)).
Proof.
  split; eexists; eexists; (split; [reflexivity|]); (split; [reflexivity|]); cbn; intros N; inversion N; subst; cbn in *; tauto.
Qed.
Print Assumptions C36_aliases_refuted.
(** at row level such a field is dropped instead *)
Theorem C36_dropped_column_refuted : exists cols, select_and_group example_field "SNOWFLAKE" true 5 ["orders.id"; "a_b.c"; "a.b_c"] ["orders.total"] = Ok (cols, [])
  /\ ~ In "a.b_c" (map co_sql cols).
Proof. eexists. split; [reflexivity|]. cbn. intros [H|[H|[H|[]]]]; discriminate H. Qed.
Print Assumptions C36_dropped_column_refuted.
(** A measure named as a dimension is grouped by its aggregate, a dimension named as a metric is selected without
    being grouped: neither list is checked for the kind of its fields. *)
Theorem C36_kinds_refuted :
  (exists cols, select_and_group example_field "SNOWFLAKE" false 5 ["orders.total"] [] = Ok (cols, ["SUM(orders.rev)"]))
  /\ (exists c, select_and_group example_field "SNOWFLAKE" false 5 [] ["orders.region"; "orders.total"] = Ok (c :: [Column "SUM(orders.rev)" "orders_total" true], []) /\ co_aggregate c = false).
Proof. split; [|exists (Column "orders.region" "orders_region" false); split; [reflexivity|reflexivity]]. eexists. reflexivity. Qed.
Print Assumptions C36_kinds_refuted.
(** At row level a measure of type number is replaced by the measures it refers to: there is no column for it. *)
Theorem C36_number_metric_refuted : exists cols, select_and_group example_field "SNOWFLAKE" true 5 ["orders.id"] ["orders.aov"] = Ok (cols, [])
  /\ ~ In "orders_aov" (map co_alias cols).
Proof. eexists. split; [reflexivity|]. cbn. intros [H|[H|[H|[]]]]; discriminate H. Qed.
Print Assumptions C36_number_metric_refuted.

(** ** When there is no GROUP BY *)
Section Resolver.
  Variable project_field : string -> res (option sfield).
  Variable W : Type.
  Variable names_of : W -> res (list string).
  Variable parse_where parse_having : W -> res W.
  Variable generate : kind -> state -> W -> W -> res string.
  Notation init := (init project_field names_of).
  Notation get_query := (get_query project_field names_of parse_where parse_having generate).

  Lemma field_or_error_ok n f : field_or_error project_field n = Ok f <-> project_field n = Ok (Some f).
  Proof.
    unfold field_or_error. destruct (project_field n) as [[g|]|e]; cbn; split; intros H; try discriminate H; injection H as <-; reflexivity.
  Qed.

  (** no GROUP BY exactly when a dimension is a primary key of the view of the first metric, and it is not forced *)
  Theorem C36_grain : forall (a : args W) s, init a = Ok s ->
    (st_no_group_by s = true <->
     ar_force_group_by a = false
     /\ exists m f d g, hd_error (ar_metrics a) = Some m /\ project_field m = Ok (Some f)
        /\ In d (ar_dimensions a) /\ project_field d = Ok (Some g) /\ sf_primary_key g = true /\ sf_view g = sf_view f).
  Proof.
    intros a s H. unfold Single_Model.init in H. apply bind_ok in H. destruct H as [fu [_ H]]. apply bind_ok in H. destruct H as [wn [_ H]].
    apply bind_ok in H. destruct H as [hn [_ H]]. apply bind_ok in H. destruct H as [on [_ H]]. destruct (ar_query_type a); [|discriminate H].
    apply bind_ok in H. destruct H as [[[lk ng] cu] [P E]]. injection E as <-. cbn [st_no_group_by]. unfold parse_input in P.
    destruct (repeated _); [discriminate P|]. apply bind_ok in P. destruct P as [ms [M P]]. apply bind_ok in P. destruct P as [ds [D P]].
    apply bind_ok in P. destruct P as [ws [_ P]]. apply bind_ok in P. destruct P as [hs [_ P]]. apply bind_ok in P. destruct P as [os [_ P]].
    injection P as _ <- _. apply mapM_ok in M. apply mapM_ok in D. rewrite existsb_exists. split.
    - intros [g [I G]]. apply andb_true_iff in G. destruct G as [G FG]. apply andb_true_iff in G. destruct G as [PK V].
      destruct M as [|m f mns ms Hm M]; [discriminate V|]. apply String.eqb_eq in V. split; [now apply negb_true_iff in FG|].
      destruct (Forall2_In_r _ _ _ D g I) as [d [J Hd]]. exists m, f, d, g. split; [reflexivity|]. apply field_or_error_ok in Hm. apply field_or_error_ok in Hd. auto.
    - intros [FG [m [f [d [g [Hm [Pm [J [Pd [PK V]]]]]]]]]]. destruct (Forall2_In_l _ _ _ D d J) as [g' [I Hd]].
      apply field_or_error_ok in Hd. rewrite Hd in Pd. injection Pd as ->. exists g. split; auto. rewrite PK, FG.
      destruct M as [|m' f' mns ms Hm' M]; [discriminate Hm|]. injection Hm as ->. apply field_or_error_ok in Hm'. rewrite Hm' in Pm. injection Pm as ->.
      rewrite V, String.eqb_refl. reflexivity.
  Qed.

  (** * C42 *)
  Lemma repeated_spec l : repeated l = true <-> ~ NoDup l.
  Proof.
    unfold repeated. rewrite negb_true_iff, Nat.eqb_neq.
    assert (A : forall (l : list string) seen, List.length (dedup_by_aux (fun x => x) seen l) <= List.length l
      /\ (List.length (dedup_by_aux (fun x => x) seen l) = List.length l <-> NoDup l /\ forall x, In x l -> ~ In x seen)).
    { clear. induction l as [|x l IH]; intros seen; cbn [dedup_by_aux].
      - split; [reflexivity|]. split; [split; [constructor|intros x []]|auto].
      - destruct (mem x seen) eqn:M.
        + destruct (IH seen) as [B _]. cbn [List.length]. split; [lia|]. split; [lia|]. intros [_ X]. exfalso. apply mem_In in M. apply (X x); [now left|auto].
        + assert (NI : ~ In x seen) by (intros C; apply mem_In in C; congruence).
          destruct (IH (x :: seen)) as [B C]. cbn [List.length]. split; [lia|]. split.
          * intros E. assert (E' : List.length (dedup_by_aux (fun x => x) (x :: seen) l) = List.length l) by lia. apply C in E'. destruct E' as [N X]. split.
            -- constructor; auto. intros I. apply (X x I). now left.
            -- intros y [<-|I]; auto. intros J. apply (X y I). now right.
          * intros [N X]. inversion N; subst. f_equal. apply C. split; auto. intros y I [<-|J]; [auto|]. apply (X y); [now right|auto]. }
    destruct (A l []) as [_ B]. unfold dedup, dedup_by. rewrite B. split; intros H N; apply H; [split; auto|tauto].
  Qed.

  (** the four kinds of wrong query; each is refused *)
  Definition wrong (a : args W) : Prop :=
    ~ NoDup (ar_metrics a ++ ar_dimensions a)
    \/ (exists ks, ar_funnel a = Some ks /\ (~ In "steps" ks \/ ~ In "within" ks))
    \/ ar_query_type a = None
    \/ (ar_funnel a <> None /\ exists m f, In m (ar_metrics a) /\ project_field m = Ok (Some f) /\ sf_cumulative f = true).
  Theorem C42_refused : forall a semicolon, wrong a -> forall t, get_query a semicolon <> Ok t.
  Proof.
    intros a sc Wr t H. unfold Single_Model.get_query in H. apply bind_ok in H. destruct H as [s [I H]].
    unfold Single_Model.init in I. apply bind_ok in I. destruct I as [fu [Fu I]]. apply bind_ok in I. destruct I as [wn [_ I]].
    apply bind_ok in I. destruct I as [hn [_ I]]. apply bind_ok in I. destruct I as [on [_ I]]. destruct (ar_query_type a) as [qt|] eqn:Q; [|discriminate I].
    apply bind_ok in I. destruct I as [[[lk ng] cu] [P E]]. injection E as <-. unfold parse_input in P.
    destruct (repeated (ar_metrics a ++ ar_dimensions a)) eqn:R; [discriminate P|]. apply bind_ok in P. destruct P as [ms [M P]].
    apply bind_ok in P. destruct P as [ds [_ P]]. apply bind_ok in P. destruct P as [ws [_ P]]. apply bind_ok in P. destruct P as [hs [_ P]]. apply bind_ok in P. destruct P as [os [_ P]].
    injection P as _ _ <-. apply bind_ok in H. destruct H as [w [_ H]]. apply bind_ok in H. destruct H as [h [_ H]]. cbn [st_cumulative st_funnel] in H.
    unfold is_funnel in Fu. destruct Wr as [D|[[ks [K N]]|[N|[N [m [f [J [Pm C]]]]]]]].
    - apply repeated_spec in D. congruence.
    - rewrite K in Fu. destruct (forallb (fun k => mem k ks) ["steps"; "within"]) eqn:E; [|discriminate Fu].
      rewrite forallb_forall in E. destruct N as [N|N]; apply N; apply mem_In; apply E; cbn; auto.
    - congruence.
    - destruct (ar_funnel a) as [ks|]; [|congruence]. destruct (forallb (fun k => mem k ks) ["steps"; "within"]); [|discriminate Fu]. injection Fu as <-.
      apply mapM_ok in M. destruct (Forall2_In_l _ _ _ M m J) as [f' [I' Hf]]. apply field_or_error_ok in Hf. rewrite Hf in Pm. injection Pm as ->.
      replace (existsb sf_cumulative ms) with true in H; [discriminate H|]. symmetry. apply existsb_exists. eauto.
  Qed.
  (** and with QueryError, when reading the names of the conditions, looking up the fields and reading the conditions
      does not fail first in another way *)
  Theorem C42_query_error : forall a semicolon, wrong a ->
    (forall w e, names_of w = Err e -> e = QueryError) -> (forall n e, project_field n = Err e -> e = QueryError) ->
    (forall w e, parse_where w = Err e -> e = QueryError) -> (forall w e, parse_having w = Err e -> e = QueryError) ->
    get_query a semicolon = Err QueryError.
  Proof.
    intros a sc Wr HN HP HW HH. pose proof (C42_refused a sc Wr) as R. unfold Single_Model.get_query in *.
    assert (FE : forall l e, mapM (field_or_error project_field) l = Err e -> e = QueryError).
    { intros l e E. apply mapM_err in E. destruct E as [n [_ E]]. unfold field_or_error in E. destruct (project_field n) as [[g|]|x] eqn:X; cbn in E; try congruence.
      injection E as <-. eapply HP; eauto. }
    destruct (init a) as [s|e] eqn:I; cbn [bind] in *.
    - destruct (parse_where (ar_where a)) as [w|e] eqn:Ew; cbn [bind] in *; [|f_equal; eapply HW; eauto].
      destruct (parse_having (ar_having a)) as [h|e] eqn:Eh; cbn [bind] in *; [|f_equal; eapply HH; eauto].
      destruct (st_cumulative s && st_funnel s) eqn:CF; [reflexivity|]. exfalso.
      (* a state was reached: the only wrong left is funnel and cumulative *)
      clear R. unfold Single_Model.init in I. apply bind_ok in I. destruct I as [fu [Fu I]]. apply bind_ok in I. destruct I as [wn [_ I]].
      apply bind_ok in I. destruct I as [hn [_ I]]. apply bind_ok in I. destruct I as [on [_ I]]. destruct (ar_query_type a) as [qt|] eqn:Q; [|discriminate I].
      apply bind_ok in I. destruct I as [[[lk ng] cu] [P E]]. injection E as <-. unfold parse_input in P.
      destruct (repeated (ar_metrics a ++ ar_dimensions a)) eqn:R; [discriminate P|]. apply bind_ok in P. destruct P as [ms [M P]].
      apply bind_ok in P. destruct P as [ds [_ P]]. apply bind_ok in P. destruct P as [ws [_ P]]. apply bind_ok in P. destruct P as [hs [_ P]]. apply bind_ok in P. destruct P as [os [_ P]].
      injection P as _ _ <-. cbn [st_cumulative st_funnel] in CF. unfold is_funnel in Fu. destruct Wr as [D|[[ks [K N]]|[N|[N [m [f [J [Pm C]]]]]]]].
      + apply repeated_spec in D. congruence.
      + rewrite K in Fu. destruct (forallb (fun k => mem k ks) ["steps"; "within"]) eqn:E; [|discriminate Fu].
        rewrite forallb_forall in E. destruct N as [N|N]; apply N; apply mem_In; apply E; cbn; auto.
      + congruence.
      + destruct (ar_funnel a) as [ks|]; [|congruence]. destruct (forallb (fun k => mem k ks) ["steps"; "within"]); [|discriminate Fu]. injection Fu as <-.
        apply mapM_ok in M. destruct (Forall2_In_l _ _ _ M m J) as [f' [I' Hf]]. apply field_or_error_ok in Hf. rewrite Hf in Pm. injection Pm as ->.
        replace (existsb sf_cumulative ms) with true in CF; [discriminate CF|]. symmetry. apply existsb_exists. eauto.
    - f_equal. clear R Wr. unfold Single_Model.init in I. unfold is_funnel in I. destruct (ar_funnel a) as [ks|]; cbn [bind] in I;
      [destruct (forallb _ _) in I; cbn [bind] in I; [|congruence]|];
      (destruct (names_of (ar_where a)) as [wn|] eqn:E1; cbn [bind] in I; [|injection I as <-; eapply HN; eauto]);
      (destruct (names_of (ar_having a)) as [hn|] eqn:E2; cbn [bind] in I; [|injection I as <-; eapply HN; eauto]);
      (destruct (names_of (ar_order_by a)) as [on|] eqn:E3; cbn [bind] in I; [|injection I as <-; eapply HN; eauto]);
      (destruct (ar_query_type a); [|congruence]);
      unfold parse_input in I; (destruct (repeated _); cbn [bind] in I; [congruence|]);
      repeat (match type of I with context [mapM ?g ?l] => destruct (mapM g l) eqn:?; cbn [bind] in I; [|injection I as <-; eapply FE; eauto] end); discriminate I.
  Qed.

  (** The text ends with the semicolon exactly when it was requested and the warehouse is not Druid or Trino. *)
  Theorem C42_semicolon : forall a semicolon t, get_query a semicolon = Ok t ->
    exists k s w h body, init a = Ok s /\ generate k s w h = Ok body
    /\ (t = (body ++ ";")%string <-> semicolon = true /\ ~ In (st_query_type s) ["DRUID"; "TRINO"])
    /\ (t = body <-> ~ (semicolon = true /\ ~ In (st_query_type s) ["DRUID"; "TRINO"]))
    /\ (k = Cumulative <-> exists m f, In m (ar_metrics a) /\ project_field m = Ok (Some f) /\ sf_cumulative f = true)
    /\ (k = Funnel <-> ar_funnel a <> None).
  Proof.
    intros a sc t H. unfold Single_Model.get_query in H. apply bind_ok in H. destruct H as [s [I H]].
    apply bind_ok in H. destruct H as [w [_ H]]. apply bind_ok in H. destruct H as [h [_ H]].
    destruct (st_cumulative s && st_funnel s) eqn:CF; [discriminate H|]. apply bind_ok in H. destruct H as [body [G E]].
    eexists. exists s, w, h, body. split; [exact I|]. split; [exact G|].
    assert (NE : forall b : string, (b ++ ";")%string <> b).
    { intros b C. assert (L : String.length (b ++ ";") = String.length b) by now rewrite C. rewrite append_length in L. simpl in L. lia. }
    assert (S : t = if (if mem (st_query_type s) ["DRUID"; "TRINO"] then false else sc) then (body ++ ";")%string else body) by (injection E as <-; reflexivity).
    clear E. split; [|split].
    - rewrite S. destruct (mem (st_query_type s) _) eqn:M; [|destruct sc].
      + apply mem_In in M. split; [intros C; symmetry in C; now apply NE in C|tauto].
      + split; auto. intros _. split; auto. intros C. apply mem_In in C. congruence.
      + split; [intros C; symmetry in C; now apply NE in C|intros [C _]; discriminate C].
    - rewrite S. destruct (mem (st_query_type s) _) eqn:M; [|destruct sc].
      + apply mem_In in M. tauto.
      + split; [intros C; now apply NE in C|]. intros C. exfalso. apply C. split; auto. intros D. apply mem_In in D. congruence.
      + split; auto. intros _ [C _]. discriminate C.
    - clear S G. unfold Single_Model.init in I. apply bind_ok in I. destruct I as [fu [Fu I]]. apply bind_ok in I. destruct I as [wn [_ I]].
      apply bind_ok in I. destruct I as [hn [_ I]]. apply bind_ok in I. destruct I as [on [_ I]]. destruct (ar_query_type a) as [qt|] eqn:Q; [|discriminate I].
      apply bind_ok in I. destruct I as [[[lk ng] cu] [P E]]. injection E as <-. unfold parse_input in P.
      destruct (repeated (ar_metrics a ++ ar_dimensions a)) eqn:R; [discriminate P|]. apply bind_ok in P. destruct P as [ms [M P]].
      apply bind_ok in P. destruct P as [ds [_ P]]. apply bind_ok in P. destruct P as [ws [_ P]]. apply bind_ok in P. destruct P as [hs [_ P]]. apply bind_ok in P. destruct P as [os [_ P]].
      injection P as _ _ <-. cbn [st_cumulative st_funnel] in *. apply mapM_ok in M.
      assert (C : existsb sf_cumulative ms = true <-> exists m f, In m (ar_metrics a) /\ project_field m = Ok (Some f) /\ sf_cumulative f = true).
      { rewrite existsb_exists. split.
        - intros [f [J C]]. destruct (Forall2_In_r _ _ _ M f J) as [m [J' Hf]]. apply field_or_error_ok in Hf. eauto.
        - intros [m [f [J [Pm C]]]]. destruct (Forall2_In_l _ _ _ M m J) as [f' [I' Hf]]. apply field_or_error_ok in Hf. rewrite Hf in Pm. injection Pm as ->. eauto. }
      rewrite <- C. unfold is_funnel in Fu. destruct (existsb sf_cumulative ms).
      + split; [tauto|]. split; [discriminate|]. intros N. destruct (ar_funnel a); [|congruence]. destruct (forallb _ _) in Fu; [|discriminate Fu]. injection Fu as <-. discriminate CF.
      + destruct (ar_funnel a).
        * destruct (forallb _ _) in Fu; [|discriminate Fu]. injection Fu as <-. split; split; try discriminate; auto.
        * injection Fu as <-. split; split; try discriminate; try congruence.
  Qed.
End Resolver.
Print Assumptions C36_grain.
Print Assumptions C42_refused.
Print Assumptions C42_query_error.
Print Assumptions C42_semicolon.

Definition opt_field (n : string) : res (option sfield) := match example_field n with Ok f => Ok (Some f) | Err _ => Ok None end.
Definition no_names (w : unit) : res (list string) := Ok [].
Example init_example : exists s, init opt_field no_names (Args ["orders.total"; "customers.ltv"] ["orders.id"] None tt tt tt (Some "TRINO") false) = Ok s
  /\ st_no_group_by s = true
  /\ get_query opt_field no_names (fun w => Ok w) (fun w => Ok w) (fun _ _ _ _ => Ok "SELECT 1") (Args ["orders.total"] ["orders.id"] None tt tt tt (Some "TRINO") false) true = Ok "SELECT 1"
  /\ get_query opt_field no_names (fun w => Ok w) (fun w => Ok w) (fun _ _ _ _ => Ok "SELECT 1") (Args ["orders.total"] ["orders.id"] None tt tt tt (Some "BIGQUERY") false) true = Ok "SELECT 1;".
Proof. eexists. repeat split; reflexivity. Qed.

(** Whether a query is grouped depends on the order of its metrics; in the ungrouped one the metric of the other
    view is not aggregated either. *)
Theorem C36_grain_order_refuted : exists s s',
  init opt_field no_names (Args ["orders.total"; "customers.ltv"] ["orders.id"] None tt tt tt (Some "SNOWFLAKE") false) = Ok s
  /\ init opt_field no_names (Args ["customers.ltv"; "orders.total"] ["orders.id"] None tt tt tt (Some "SNOWFLAKE") false) = Ok s'
  /\ st_no_group_by s = true /\ st_no_group_by s' = false.
Proof. eexists. eexists. repeat split; reflexivity. Qed.
Print Assumptions C36_grain_order_refuted.
(** A warehouse that is not supported is not refused by these checks: it fails later, with KeyError, when the dialect
    is looked up (query_base.py _base_query). *)
Theorem C42_unknown_warehouse_refuted :
  get_query opt_field no_names (fun w => Ok w) (fun w => Ok w) (fun _ s _ _ => b <- query_lookup (st_query_type s) ;; Ok "SELECT 1")
    (Args ["orders.total"] [] None tt tt tt (Some "MYSQL") false) true = Err KeyError.
Proof. reflexivity. Qed.
Print Assumptions C42_unknown_warehouse_refuted.
