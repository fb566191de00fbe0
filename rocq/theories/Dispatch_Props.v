(** Specification and property theorems: C38 and C50. *)
From Verif Require Import PyBase PyStr PySort Core_Model Dispatch_Model.
Local Open Scope string_scope.
Local Open Scope list_scope.
Local Open Scope nat_scope.

Lemma dedup_In l x : In x (dedup l) <-> In x l.
Proof.
  unfold dedup, dedup_by. pose proof (dedup_by_aux_keys (fun s : string => s) [] l x) as H. rewrite !map_id in H.
  rewrite H. simpl. tauto.
Qed.

Section C38.
  Variables M C : Type.
  Variable mql_query : request M -> res string.
  Variable metrics_init : request M -> res (option C).
  Variable metrics_query : request M -> res (string * kind).
  Variable merged_init : request M -> res unit.
  Variable merged_query : request M -> res string.
  Variable pretty_sql : string -> string.
  Notation get_sql_query := (get_sql_query mql_query metrics_init metrics_query merged_init merged_query pretty_sql).

  (** Who answers. *)
  Inductive answers (r : request M) : list used -> Prop :=
  | by_mql : (exists t, rq_sql r = Some t /\ t <> "") -> answers r [UMql]
  | by_metrics : (rq_sql r = None \/ rq_sql r = Some "") -> (rq_metrics r <> [] \/ rq_dimensions r <> []) -> answers r [UMetrics]
  | by_merged : (rq_sql r = None \/ rq_sql r = Some "") -> rq_metrics r = [] -> rq_dimensions r = [] -> rq_merged r <> [] -> answers r [UMerged]
  | by_nobody : (rq_sql r = None \/ rq_sql r = Some "") -> rq_metrics r = [] -> rq_dimensions r = [] -> rq_merged r = [] -> answers r [].

  Lemma given_false s : given s = false -> s = None \/ s = Some "".
  Proof. destruct s as [[|a t]|]; auto. discriminate. Qed.
  Lemma given_true s : given s = true -> exists t, s = Some t /\ t <> "".
  Proof. destruct s as [[|a t]|]; try discriminate. exists (String a t). split; [reflexivity|discriminate]. Qed.

  Theorem C38_exactly_one r : answers r (fst (get_sql_query r))
    /\ (forall u, answers r u -> u = fst (get_sql_query r)) /\ (fst (get_sql_query r) = [] -> snd (get_sql_query r) = Err QueryError).
  Proof.
    assert (A : answers r (fst (get_sql_query r)) /\ (fst (get_sql_query r) = [] -> snd (get_sql_query r) = Err QueryError)).
    { unfold Dispatch_Model.get_sql_query, dispatch. destruct (given (rq_sql r)) eqn:G.
      - split; [apply by_mql, given_true, G|discriminate].
      - apply given_false in G. destruct (rq_metrics r) as [|m ms] eqn:EM; [destruct (rq_dimensions r) as [|d ds] eqn:ED|].
        + destruct (rq_merged r) eqn:EQ; (split; [|try reflexivity; discriminate]); [apply by_nobody|apply by_merged]; auto. congruence.
        + split; [|discriminate]. apply by_metrics; [exact G|]. right. congruence.
        + split; [|discriminate]. apply by_metrics; [exact G|]. left. congruence. }
    split; [apply A|]. split; [|apply A].
    intros u U. destruct A as [A _]. revert A. generalize (fst (get_sql_query r)). intros v V.
    destruct U as [(t & T1 & T2)|S [N|N]|S E1 E2 N|S E1 E2 N]; destruct V as [(t' & T1' & T2')|S' [N'|N']|S' E1' E2' N'|S' E1' E2' N'];
      try reflexivity; try congruence; try (destruct S; congruence); destruct S'; congruence.
  Qed.

  (** What the answering resolver says decides the result, and its errors are the errors of the request. *)
  Definition outcome (r : request M) (u : list used) : res string :=
    match u with
    | [UMql] => mql_query r
    | [UMetrics] => _ <- metrics_init r ;; q <- metrics_query r ;; Ok (fst q)
    | [UMerged] => _ <- merged_init r ;; merged_query r
    | _ => Err QueryError
    end.
  Definition shown (r : request M) (q : string) : string := if rq_pretty r then pretty_sql q else q.
  Theorem C38_result r u a : get_sql_query r = (u, a) ->
    match outcome r u with
    | Err e => a = Err e
    | Ok q =>
        if rq_connection r then
          a = Ok (AConn (shown r q) (match u with [UMetrics] => match metrics_init r with Ok c => c | Err _ => None end | _ => None end))
        else if rq_kind r then
          match u with
          | [UMetrics] => exists k, metrics_query r = Ok (q, k) /\ a = Ok (AKind (shown r q) k)
          | [UMerged] => a = Ok (AKind (shown r q) KMerged)
          | _ => a = Err UnboundLocal
          end
        else a = Ok (AText (shown r q))
    end.
  Proof.
    intros H. unfold Dispatch_Model.get_sql_query, dispatch in H. unfold shown.
    assert (P : forall n, outcome r n = outcome r n) by reflexivity.
    destruct (given (rq_sql r)); [|destruct (rq_metrics r); [destruct (rq_dimensions r); [destruct (rq_merged r)|]|]]; injection H as <- <-; cbn [outcome].
    - destruct (mql_query r) as [q|e]; cbn [bind]; [|reflexivity]. unfold finish. destruct (rq_connection r), (rq_kind r); reflexivity.
    - reflexivity.
    - destruct (merged_init r) as [[]|e]; cbn [bind]; [|reflexivity]. destruct (merged_query r) as [q|e]; cbn [bind]; [|reflexivity].
      unfold finish. destruct (rq_connection r), (rq_kind r); reflexivity.
    - destruct (metrics_init r) as [c|e]; cbn [bind]; [|reflexivity]. destruct (metrics_query r) as [[q k]|e]; cbn [bind fst]; [|reflexivity].
      unfold finish. cbn [snd]. destruct (rq_connection r), (rq_kind r); try reflexivity. exists k. split; reflexivity.
    - destruct (metrics_init r) as [c|e]; cbn [bind]; [|reflexivity]. destruct (metrics_query r) as [[q k]|e]; cbn [bind fst]; [|reflexivity].
      unfold finish. cbn [snd]. destruct (rq_connection r), (rq_kind r); try reflexivity. exists k. split; reflexivity.
  Qed.

  Variable ctype : C -> string.
  Variable T : Type.
  Variable exec : string -> C -> res T.
  Notation query := (query mql_query metrics_init metrics_query merged_init merged_query pretty_sql ctype T exec).
  (** query() of metrics or dimensions runs the text of get_sql_query on the connection of the model. *)
  Theorem C38_query_runs r q c k : answers (with_connection r) [UMetrics] ->
    metrics_init (with_connection r) = Ok (Some c) -> metrics_query (with_connection r) = Ok (q, k) -> In (ctype c) runnable ->
    query r = exec (shown r q) c.
  Proof.
    intros A I Q R. pose proof (C38_exactly_one (with_connection r)) as (_ & U & _). specialize (U _ A).
    destruct (get_sql_query (with_connection r)) as [u a] eqn:G. cbn [fst] in U. subst u. pose proof (C38_result _ _ _ G) as S.
    cbn [outcome] in S. rewrite I, Q in S. cbn [bind fst] in S. cbn [rq_connection with_connection] in S.
    unfold Dispatch_Model.query. rewrite G. cbn [snd]. rewrite S. cbn [bind run_query]. apply mem_In in R. rewrite R. reflexivity.
  Qed.
End C38.
Print Assumptions C38_exactly_one.
Print Assumptions C38_result.
Print Assumptions C38_query_runs.

Definition ok_mql (r : request unit) : res string := Ok "select 1;".
Definition ok_init (r : request unit) : res (option conn) := Ok (Some (Conn "wh" "SNOWFLAKE")).
Definition ok_metrics (r : request unit) : res (string * kind) := Ok ("select 2;", KSingle).
Definition ok_minit (r : request unit) : res unit := Ok tt.
Definition ok_merged (r : request unit) : res string := Ok "select 3;".
Notation gsq := (get_sql_query ok_mql ok_init ok_metrics ok_minit ok_merged (fun s => s)).
Example dispatch_examples :
  gsq (Request (Some "MQL(a)") ["m"] [] [tt] false false false) = ([UMql], Ok (AText "select 1;"))
  /\ gsq (Request (Some "") ["m"] [] [tt] false true true) = ([UMetrics], Ok (AConn "select 2;" (Some (Conn "wh" "SNOWFLAKE"))))
  /\ gsq (Request None [] ["d"] [tt] false false true) = ([UMetrics], Ok (AKind "select 2;" KSingle))
  /\ gsq (Request None [] [] [tt] false false true) = ([UMerged], Ok (AKind "select 3;" KMerged))
  /\ gsq (Request None [] [] [] false false false) = ([], Err QueryError).
Proof. repeat split. Qed.
Example query_runs_hypotheses : answers unit (with_connection (Request None ["m"] [] [] false false false)) [UMetrics].
Proof. apply by_metrics; [left; reflexivity|left; discriminate]. Qed.

(** A raw MQL request cannot be asked for its kind, whatever the resolvers do. *)
Theorem C38_mql_kind_refuted : exists r : request unit, rq_sql r <> None /\ rq_kind r = true
  /\ forall (C : Type) (q : string) (i : request unit -> res (option C)) m mi mq p,
       get_sql_query (fun _ => Ok q) i m mi mq p r = ([UMql], Err UnboundLocal).
Proof. exists (Request (Some "MQL(m)") [] [] [] false false true). split; [discriminate|]. split; reflexivity. Qed.
(** Only metric requests can be run: query(sql=...) and query(merged_queries=...) never reach the warehouse. *)
Theorem C38_query_not_run_refuted : forall (M C T : Type) (r : request M) f1 (f2 : request M -> res (option C)) f3 f4 f5 p ct (exec : string -> C -> res T) x,
  (given (rq_sql r) = true \/ (rq_metrics r = [] /\ rq_dimensions r = [])) ->
  query f1 f2 f3 f4 f5 p ct T exec r <> Ok x.
Proof.
  intros M C T r f1 f2 f3 f4 f5 p ct exec x H. unfold query, get_sql_query, dispatch. cbn [with_connection rq_sql rq_metrics rq_dimensions rq_merged].
  destruct (given (rq_sql r)).
  - cbn [snd]. destruct (f1 _); cbn [bind finish rq_connection with_connection run_query]; discriminate.
  - destruct H as [H|[-> ->]]; [discriminate|]. destruct (rq_merged r); cbn [snd bind]; [discriminate|].
    destruct (f4 _); cbn [bind]; [|discriminate]. destruct (f5 _); cbn [bind finish rq_connection with_connection run_query]; discriminate.
Qed.
Print Assumptions C38_mql_kind_refuted.
Print Assumptions C38_query_not_run_refuted.

(** ** C50: the model of a query *)
Section C50.
  Variable model_name_of : string -> res (option string).
  Variable models : list string.
  Variable mappings_of : string -> res (list string).
  Variable enum : list (option string) -> list (option string).
  (** list(set(l)): the elements of l, once each *)
  Hypothesis enum_set : forall l, NoDup (enum l) /\ forall x, In x (enum l) <-> In x l.
  Notation derive := (derive_model model_name_of models mappings_of enum).
  Notation for_query := (model_for_query model_name_of models mappings_of enum).

  Definition is_field (f : string) (n : option string) : Prop := model_name_of f = Ok n.
  Definition not_field (f : string) : Prop := exists e, model_name_of f = Err e.

  Lemma collect_spec fs : forall a, 
    let r := fold_left (fun acc f => match model_name_of f with
                            | Ok n => (fst acc ++ [n], snd acc)
                            | Err _ => (fst acc, snd acc ++ mapped_models models mappings_of f)
                            end) fs a in
    (forall n, In n (fst r) <-> In n (fst a) \/ exists f, In f fs /\ is_field f n)
    /\ (forall m, In m (snd r) <-> In m (snd a) \/ exists f, In f fs /\ not_field f /\ In m (mapped_models models mappings_of f)).
  Proof.
    induction fs as [|f fs IH]; intros a; cbn [fold_left].
    - split; intros x; (split; [auto|intros [H|(? & [] & _)]; exact H]).
    - specialize (IH (match model_name_of f with Ok n => (fst a ++ [n], snd a) | Err _ => (fst a, snd a ++ mapped_models models mappings_of f) end)).
      destruct IH as [I1 I2]. unfold is_field, not_field in *. split.
      + intros n. rewrite I1. destruct (model_name_of f) as [k|e] eqn:F; cbn [fst snd].
        * rewrite in_app_iff. simpl. split.
          -- intros [[H|[<-|[]]]|(g & A & B)]; [auto|right; exists f; auto|right; exists g; auto].
          -- intros [H|(g & [<-|A] & B)]; [auto|left; right; left; congruence|right; exists g; auto].
        * split; [intros [H|(g & A & B)]; [auto|right; exists g; split; [right; exact A|exact B]]|].
          intros [H|(g & [<-|A] & B)]; [auto|congruence|right; exists g; auto].
      + intros m. rewrite I2. destruct (model_name_of f) as [k|e] eqn:F; cbn [fst snd].
        * split; [intros [H|(g & A & B)]; [auto|right; exists g; split; [right; exact A|exact B]]|].
          intros [H|(g & [<-|A] & (x & X) & B)]; [auto|congruence|right; exists g; split; [exact A|]; split; [exists x; exact X|exact B]].
        * rewrite in_app_iff. split.
          -- intros [[H|H]|(g & A & B)]; [auto|right; exists f; split; [left; reflexivity|split; [exists e; exact F|exact H]]|right; exists g; split; [right; exact A|exact B]].
          -- intros [H|(g & [<-|A] & X & B)]; [auto|left; right; exact B|right; exists g; auto].
  Qed.
  Lemma get_model_ok n m : get_model models n = Ok m -> n = Some m /\ In m models.
  Proof. unfold get_model. destruct n as [n|]; [|discriminate]. destruct (mem n models) eqn:E; [|discriminate]. intros H. injection H as <-. apply mem_In in E. auto. Qed.
  Lemma most_common_In l m : In m (most_common l) -> In m l.
  Proof.
    unfold most_common. intros H. apply in_map_iff in H. destruct H as ((x & n) & <- & H). apply isort_In in H.
    apply in_map_iff in H. destruct H as (y & E & H). injection E as <- _. apply (proj1 (dedup_In _ _)) in H. exact H.
  Qed.

  (** The chosen model exists and every field of the query belongs to it. *)
  Theorem C50_fields_of_one_model metrics dims m : derive metrics dims = Ok m ->
    In m models /\ forall f n, In f (metrics ++ dims) -> is_field f n -> n = Some m.
  Proof.
    unfold derive_model. destruct (collect_models _ _ _ _) as [all mapped] eqn:E. intros H.
    destruct (collect_spec (metrics ++ dims) ([], [])) as [S1 _]. unfold collect_models in E. rewrite E in S1. cbn [fst] in S1.
    destruct (enum_set all) as [ND IN].
    assert (F : forall f n, In f (metrics ++ dims) -> is_field f n -> In n (enum all)).
    { intros f n I A. apply IN. apply S1. right. exists f. auto. }
    destruct (enum all) as [|n [|n' r]].
    - destruct mapped as [|x mapped]; [discriminate|]. destruct (most_common _) as [|y l]; [discriminate|]. apply get_model_ok in H. destruct H as [H I]. split; [exact I|].
      intros f n A B. destruct (F f n A B).
    - assert (H' : get_model models n = Ok m).
      { destruct mapped; [exact H|]. destruct n as [n|]; [|discriminate]. destruct (mem n (s :: mapped)); [exact H|discriminate]. }
      apply get_model_ok in H'. destruct H' as [-> I]. split; [exact I|]. intros f k A B. destruct (F f k A B) as [<-|[]]. reflexivity.
    - destruct mapped; discriminate.
  Qed.
  (** Fields of two models: QueryError. *)
  Theorem C50_two_models metrics dims f g n k : In f (metrics ++ dims) -> In g (metrics ++ dims) ->
    is_field f n -> is_field g k -> n <> k -> derive metrics dims = Err QueryError.
  Proof.
    intros If Ig Hf Hg NE. unfold derive_model. destruct (collect_models _ _ _ _) as [all mapped] eqn:E.
    destruct (collect_spec (metrics ++ dims) ([], [])) as [S1 _]. unfold collect_models in E. rewrite E in S1. cbn [fst] in S1.
    destruct (enum_set all) as [ND IN].
    assert (F : forall f n, In f (metrics ++ dims) -> is_field f n -> In n (enum all)).
    { intros x y I A. apply IN. apply S1. right. exists x. auto. }
    pose proof (F f n If Hf) as A. pose proof (F g k Ig Hg) as B.
    destruct (enum all) as [|x [|y r]]; [destruct A| |destruct mapped; reflexivity].
    destruct A as [A|[]], B as [B|[]]. congruence.
  Qed.
  (** Only fields, all of one model of the project: that model. *)
  Theorem C50_one_model metrics dims m : metrics ++ dims <> [] -> In m models ->
    (forall f, In f (metrics ++ dims) -> is_field f (Some m)) -> derive metrics dims = Ok m.
  Proof.
    intros NE IM H. unfold derive_model. destruct (collect_models _ _ _ _) as [all mapped] eqn:E.
    destruct (collect_spec (metrics ++ dims) ([], [])) as [S1 S2]. unfold collect_models in E. rewrite E in S1, S2. cbn [fst snd] in S1, S2.
    destruct (enum_set all) as [ND IN].
    assert (M0 : mapped = []).
    { destruct mapped as [|x mapped]; [reflexivity|]. exfalso. destruct (proj1 (S2 x) (or_introl eq_refl)) as [[]|(f & I & (e & X) & _)]. specialize (H f I). unfold is_field in H. congruence. }
    assert (A1 : forall n, In n (enum all) -> n = Some m).
    { intros n I. apply IN, S1 in I. destruct I as [[]|(f & I & X)]. specialize (H f I). unfold is_field in *. congruence. }
    assert (A2 : In (Some m) (enum all)).
    { apply IN, S1. right. destruct (metrics ++ dims) as [|f r]; [congruence|]. exists f. split; [left; reflexivity|]. apply H. left. reflexivity. }
    rewrite M0. destruct (enum all) as [|n [|n' r]]; [destruct A2| |].
    - rewrite (A1 n (or_introl eq_refl)). unfold get_model. apply mem_In in IM. rewrite IM. reflexivity.
    - exfalso. inversion ND as [|? ? N1 _]; subst. apply N1. rewrite (A1 n (or_introl eq_refl)), <- (A1 n' (or_intror (or_introl eq_refl))). left. reflexivity.
  Qed.
  (** The model the caller names, or the only one of the project, is used whatever the fields are. *)
  Theorem C50_requested metrics dims :
    (forall n, n <> "" -> for_query (Some n) metrics dims = if mem n models then Ok n else Err AccessDenied)
    /\ (forall r m, (r = None \/ r = Some "") -> models = [m] -> for_query r metrics dims = Ok m)
    /\ (forall r, (r = None \/ r = Some "") -> models = [] -> for_query r metrics dims = Err QueryError)
    /\ (forall r m m' ms, (r = None \/ r = Some "") -> models = m :: m' :: ms -> for_query r metrics dims = derive metrics dims).
  Proof.
    split; [intros [|a n] H; [congruence|reflexivity]|].
    split; [|split]; [intros r m [-> | ->] E|intros r [-> | ->] E|intros r m m' ms [-> | ->] E]; unfold model_for_query; rewrite E; reflexivity.
  Qed.
End C50.
Print Assumptions C50_fields_of_one_model.
Print Assumptions C50_two_models.
Print Assumptions C50_one_model.
Print Assumptions C50_requested.

(** An instance of the set oracle *)
Definition opt_mem (x : option string) (l : list (option string)) : bool :=
  existsb (fun y => match x, y with Some a, Some b => String.eqb a b | None, None => true | _, _ => false end) l.
Fixpoint ex_enum (l : list (option string)) : list (option string) :=
  match l with [] => [] | x :: r => if opt_mem x r then ex_enum r else x :: ex_enum r end.
Lemma opt_mem_In x l : opt_mem x l = true <-> In x l.
Proof.
  unfold opt_mem. rewrite existsb_exists. split.
  - intros (y & I & E). destruct x, y; try discriminate; [apply String.eqb_eq in E; subst|]; exact I.
  - intros I. exists x. split; [exact I|]. destruct x; [apply String.eqb_refl|reflexivity].
Qed.
Lemma ex_enum_set l : NoDup (ex_enum l) /\ forall x, In x (ex_enum l) <-> In x l.
Proof.
  induction l as [|x l [N I]]; simpl; [split; [constructor|tauto]|].
  destruct (opt_mem x l) eqn:E.
  - apply opt_mem_In in E. split; [exact N|]. intros y. rewrite I. split; [auto|]. intros [<-|H]; auto.
  - split.
    + constructor; [|exact N]. rewrite I. intros H. apply opt_mem_In in H. congruence.
    + intros y. simpl. rewrite I. tauto.
Qed.
Definition ex_fields (f : string) : res (option string) :=
  if String.eqb f "orders.revenue" then Ok (Some "m1") else if String.eqb f "calls.n" then Ok (Some "m2") else Err AccessDenied.
Definition ex_maps (m : string) : res (list string) := Ok (if String.eqb m "m2" then ["region"; "date"] else ["date"]).
Example derive_examples :
  derive_model ex_fields ["m1"; "m2"] ex_maps ex_enum ["orders.revenue"] ["date"] = Ok "m1"
  /\ derive_model ex_fields ["m1"; "m2"] ex_maps ex_enum ["orders.revenue"; "calls.n"] [] = Err QueryError.
Proof. split; reflexivity. Qed.
(** A query of mapped names only goes to the first model, although only the second one defines the name; the
    same for a name that exists nowhere, which is blamed on that model. *)
Theorem C50_mapped_only_refuted :
  derive_model ex_fields ["m1"; "m2"] ex_maps ex_enum [] ["region"] = Ok "m1"
  /\ get_mapped_field ex_maps "region" "m1" = Ok None /\ get_mapped_field ex_maps "region" "m2" = Ok (Some "region").
Proof. repeat split. Qed.
(** A mapped name that the model of the fields does not define is accepted here. *)
Theorem C50_mapping_of_other_model_refuted :
  derive_model ex_fields ["m1"; "m2"] ex_maps ex_enum ["orders.revenue"] ["region"] = Ok "m1"
  /\ get_mapped_field ex_maps "region" "m1" = Ok None.
Proof. split; reflexivity. Qed.
(** Mapped-only queries always go to the first model when every model's mappings can be read. *)
Theorem C50_mapped_only_first_model_refuted mn ms mo enum m ms' dims :
  ms = m :: ms' -> NoDup ms -> (forall x, In x ms -> exists l, mo x = Ok l) -> dims <> [] -> (forall f, In f dims -> exists e, mn f = Err e) ->
  enum [] = [] -> derive_model mn ms mo enum [] dims = Ok m.
Proof.
  intros E ND R NE NF E0. unfold derive_model. cbn [app].
  assert (F : filter (fun x => match get_mapped_field mo "" x with Ok _ => true | Err _ => false end) ms = ms) by
    (clear - R; induction ms as [|x ms IH]; [reflexivity|]; cbn [filter]; unfold get_mapped_field at 1; destruct (R x (or_introl eq_refl)) as [l ->]; cbn [bind]; rewrite IH; [reflexivity|intros y I; apply R; right; exact I]).
  assert (MM : forall f, mapped_models ms mo f = ms).
  { intros f. unfold mapped_models. etransitivity; [|exact F]. apply filter_ext. intros x. unfold get_mapped_field. destruct (mo x); reflexivity. }
  assert (C : forall a, fold_left (fun acc f => match mn f with Ok n => (fst acc ++ [n], snd acc) | Err _ => (fst acc, snd acc ++ mapped_models ms mo f) end) dims a
                = (fst a, snd a ++ List.concat (map (fun _ => ms) dims))).
  { clear NE. induction dims as [|f dims IH]; intros a; cbn [fold_left map List.concat]; [rewrite app_nil_r; destruct a; reflexivity|].
    destruct (NF f (or_introl eq_refl)) as [e ->]. rewrite IH by (intros g I; apply NF; right; exact I). cbn [fst snd]. rewrite MM, <- app_assoc. reflexivity. }
  unfold collect_models. rewrite C. cbn [fst snd app]. rewrite E0.
  destruct dims as [|d dims]; [congruence|]. cbn [map List.concat].
  assert (H1 : exists l, ms ++ List.concat (map (fun _ => ms) dims) = m :: l) by (rewrite E; cbn [app]; eauto).
  destruct H1 as [l L]. rewrite L. cbv iota.
  assert (CNT : forall x, In x ms -> List.length (filter (String.eqb x) (m :: l)) = S (List.length dims)).
  { intros x I. rewrite <- L. clear - ND I.
    assert (ONE : List.length (filter (String.eqb x) ms) = 1).
    { induction ms as [|y ms IH]; [destruct I|]. inversion ND as [|? ? N1 N2]; subst. cbn [filter]. destruct (String.eqb x y) eqn:Q.
      - apply String.eqb_eq in Q. subst y. cbn [List.length]. f_equal. clear - N1. induction ms as [|z ms IH]; [reflexivity|]. cbn [filter]. destruct (String.eqb x z) eqn:Q; [apply String.eqb_eq in Q; subst; exfalso; apply N1; left; reflexivity|]. apply IH. intros H. apply N1. right. exact H.
      - apply IH; [exact N2|]. destruct I as [->|I]; [rewrite String.eqb_refl in Q; discriminate|exact I]. }
    rewrite filter_app, app_length, ONE. cbn [Nat.add]. f_equal. induction dims as [|d dims IH]; [reflexivity|]. cbn [map List.concat]. rewrite filter_app, app_length, ONE, IH. reflexivity. }
  assert (DM : forall x, In x (dedup (m :: l)) -> In x ms).
  { intros x I. apply (proj1 (dedup_In _ _)) in I. rewrite <- L in I. apply in_app_or in I. destruct I as [I|I]; [exact I|]. apply in_concat in I. destruct I as (y & Y & I). apply in_map_iff in Y. destruct Y as (z & <- & _). exact I. }
  assert (DH : exists l', dedup (m :: l) = m :: l').
  { clear. unfold dedup. cbn. eauto. }
  destruct DH as [l' DH].
  assert (MC : exists l2, most_common (m :: l) = m :: l2).
  { unfold most_common. rewrite DH in *. cbn [map isort fold_right].
    assert (K : forall x, In x (m :: l') -> List.length (filter (String.eqb x) (m :: l)) = S (List.length dims)) by (intros x I; apply CNT, DM; exact I).
    set (le := fun a b : string * nat => Nat.leb (snd b) (snd a)).
    set (tl' := fold_right _ _ _).
    assert (TI : forall p, In p tl' -> snd p = S (List.length dims)).
    { intros p I. change tl' with (isort le (map (fun x => (x, List.length (filter (String.eqb x) (m :: l)))) l')) in I. apply isort_In in I. apply in_map_iff in I. destruct I as (x & <- & I). cbn [snd]. apply K. right. exact I. }
    destruct tl' as [|p r]; cbn [insert map fst]; [eauto|]. unfold le at 1. cbn [snd].
    rewrite (TI p (or_introl eq_refl)), (K m (or_introl eq_refl)), Nat.leb_refl. cbn [map fst]. eauto. }
  destruct MC as [l2 ->]. unfold get_model. rewrite E. cbn [mem existsb]. rewrite String.eqb_refl. reflexivity.
Qed.
Print Assumptions C50_mapped_only_refuted.
Print Assumptions C50_mapping_of_other_model_refuted.
Print Assumptions C50_mapped_only_first_model_refuted.

(** ** The warehouse: what the caller says, else the type of the connection the model names. *)
Theorem C50_warehouse requested cs name t : get_query_type requested (get_connection cs name) = Ok t <->
  requested = Some t \/ requested = None /\ exists pre c post, cs = pre ++ c :: post /\ cn_name c = name /\ cn_type c = t /\ forall d, In d pre -> cn_name d <> name.
Proof.
  unfold get_query_type, get_connection. destruct requested as [q|].
  - split; [intros H; injection H as <-; left; reflexivity|]. intros [H|[H _]]; congruence.
  - destruct (find _ cs) as [c|] eqn:F.
    + split.
      * intros H. injection H as <-. right. split; [reflexivity|]. clear - F. induction cs as [|d cs IH]; [discriminate|]. cbn [find] in F.
        destruct (String.eqb (cn_name d) name) eqn:Q.
        -- injection F as ->. apply String.eqb_eq in Q. exists [], c, cs. repeat split; auto.
        -- destruct (IH F) as (pre & c' & post & -> & A & B & D). apply String.eqb_neq in Q. exists (d :: pre), c', post. repeat split; auto. intros x [<-|I]; auto.
      * intros [H|(_ & pre & c' & post & -> & A & B & D)]; [discriminate|]. f_equal. rewrite <- B. f_equal. clear - F A D.
        induction pre as [|d pre IH]; cbn [app find] in F; [rewrite (proj2 (String.eqb_eq _ _) A) in F; congruence|].
        destruct (String.eqb (cn_name d) name) eqn:Q; [apply String.eqb_eq in Q; exfalso; apply (D d); [left; reflexivity|exact Q]|]. apply IH; [exact F|]. intros x I. apply D. right. exact I.
    + split; [discriminate|]. intros [H|(_ & pre & c' & post & -> & A & _)]; [discriminate|]. exfalso.
      pose proof (find_none _ _ F c') as N. cbn beta in N. rewrite (proj2 (String.eqb_eq _ _) A) in N. discriminate N. apply in_or_app. right. left. reflexivity.
Qed.
Print Assumptions C50_warehouse.
Example warehouse_example : get_query_type None (get_connection [Conn "a" "BIGQUERY"; Conn "b" "TRINO"] "b") = Ok "TRINO".
Proof. reflexivity. Qed.
(** A warehouse that neither the caller nor a connection gives: QueryError. *)
Theorem C50_no_warehouse cs name : get_query_type None (get_connection cs name) = Err QueryError <-> forall c, In c cs -> cn_name c <> name.
Proof.
  unfold get_query_type, get_connection. destruct (find _ cs) as [c|] eqn:F.
  - split; [discriminate|]. intros H. apply find_some in F. destruct F as [I E]. apply String.eqb_eq in E. exfalso. exact (H c I E).
  - split; [|reflexivity]. intros _ c I E. pose proof (find_none _ _ F c I) as N. cbn beta in N. rewrite (proj2 (String.eqb_eq _ _) E) in N. discriminate.
Qed.
Print Assumptions C50_no_warehouse.
(** A mapping is looked up by its name in small letters, and the name that comes back is that one. *)
Theorem C50_mapped_name mappings_of f m x : get_mapped_field mappings_of f m = Ok (Some x) <->
  x = lower f /\ exists l, mappings_of m = Ok l /\ In (lower f) l.
Proof.
  unfold get_mapped_field. destruct (mappings_of m) as [l|e]; cbn [bind].
  - destruct (mem (lower f) l) eqn:E.
    + split; [intros H; injection H as <-; split; [reflexivity|]; exists l; split; [reflexivity|apply mem_In, E]|intros [-> _]; reflexivity].
    + split; [discriminate|]. intros [_ (l' & L & I)]. injection L as <-. apply mem_In in I. congruence.
  - split; [discriminate|]. intros [_ (l' & L & _)]. discriminate.
Qed.
Print Assumptions C50_mapped_name.
Example mapped_name_case : get_mapped_field ex_maps "Region" "m2" = Ok (Some "region").
Proof. reflexivity. Qed.

(** What query() says, whoever answers: an error of the resolver is the error of the call; a request that is not
    one of metrics has no connection and raises AttributeError; the warehouse of a metric request must be one of
    those the runner knows. *)
Definition known_warehouse (t : string) : bool :=
  (String.eqb t "SNOWFLAKE" || String.eqb t "BIGQUERY" || String.eqb t "REDSHIFT" || String.eqb t "POSTGRES")%bool.
Theorem C38_query_says (M C T : Type) mql (metrics_init : request M -> res (option C)) metrics_query merged_init merged_query pretty ctype (exec : string -> C -> res T) r u :
  answers M (with_connection r) u ->
  query mql metrics_init metrics_query merged_init merged_query pretty ctype T exec r
  = match outcome M C mql metrics_init metrics_query merged_init merged_query (with_connection r) u with
    | Err e => Err e
    | Ok q => match u, metrics_init (with_connection r) with
              | [UMetrics], Ok (Some c) => if known_warehouse (ctype c) then exec (shown M pretty r q) c else Err ValueError
              | _, _ => Err AttributeError
              end
    end.
Proof.
  intros A. pose proof (C38_exactly_one M C mql metrics_init metrics_query merged_init merged_query pretty (with_connection r)) as (_ & U & _). specialize (U _ A).
  destruct (get_sql_query mql metrics_init metrics_query merged_init merged_query pretty (with_connection r)) as [v a] eqn:G. cbn [fst] in U. subst v.
  pose proof (C38_result _ _ _ _ _ _ _ _ _ _ _ G) as S0. unfold query. rewrite G. cbn [snd].
  destruct (outcome _ _ _ _ _ _ _ _ u) as [q|e]; [|rewrite S0; reflexivity].
  cbn [rq_connection with_connection] in S0. rewrite S0. cbn [bind].
  assert (K : forall c, mem (ctype c) runnable = known_warehouse (ctype c)).
  { intros c. unfold known_warehouse, runnable. cbn [mem existsb]. rewrite Bool.orb_false_r, !Bool.orb_assoc. reflexivity. }
  destruct u as [|[] [|? ?]]; try reflexivity.
  destruct (metrics_init (with_connection r)) as [[c|]|e]; cbn [run_query]; try reflexivity. rewrite K. reflexivity.
Qed.
Print Assumptions C38_query_says.
