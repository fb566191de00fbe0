(** C72: the dates of cumulative metrics. *)
From Coq Require Import List String Ascii Bool Arith Lia.
From Verif Require Import PyBase PyList PyStr PyReplace PyRefs Subst_Props CumDate_Model.
Import ListNotations.
Local Open Scope string_scope.
Local Open Scope list_scope.

(** ** What a name denotes in a project *)
Definition look (fields : list cfield) (s : string) : res cfield :=
  match filter (matches s) fields with [f] => Ok f | [] => Err AccessDenied | _ => Err QueryError end.
(** names that can be written: no dots, and lower case *)
Definition clean (fields : list cfield) : Prop := forall f, In f fields -> has_char dot (c_view f) = false /\ has_char dot (label f) = false /\ lower (label f) = label f.
Lemma look_matches fields s f : look fields s = Ok f -> In f fields /\ matches s f = true /\ forall f', In f' fields -> matches s f' = true -> f' = f.
Proof.
  unfold look. destruct (filter (matches s) fields) as [|a [|b r]] eqn:E; try discriminate. intros H. injection H as <-. split; [|split].
  - assert (I : In a (filter (matches s) fields)) by (rewrite E; now left). now apply filter_In in I.
  - assert (I : In a (filter (matches s) fields)) by (rewrite E; now left). now apply filter_In in I.
  - intros f' I M. assert (J : In f' (filter (matches s) fields)) by (apply filter_In; auto). rewrite E in J. destruct J as [<-|[]]. reflexivity.
Qed.
Lemma filter_one {A} (p q : A -> bool) l a : filter p l = [a] -> q a = true -> (forall x, In x l -> q x = true -> p x = true) -> filter q l = [a].
Proof.
  intros F Q I. revert F. induction l as [|x l IH]; [discriminate|]. cbn [filter]. destruct (p x) eqn:P.
  - intros F. injection F as -> F. rewrite Q. f_equal. assert (N : forall y, In y l -> q y = false).
    { intros y Y. destruct (q y) eqn:E; [|reflexivity]. exfalso. assert (Z : In y (filter p l)) by (apply filter_In; split; [exact Y|apply I; [now right|exact E]]). rewrite F in Z. destruct Z. }
    clear - N. induction l as [|y l IH]; [reflexivity|]. cbn. rewrite N by (now left). apply IH. intros z Z. apply N. now right.
  - intros F. destruct (q x) eqn:E; [rewrite (I x) in P by (auto; now left); discriminate|]. apply IH; [intros y Y; apply I; now right|exact F].
Qed.
(** the id of a field that was found denotes it *)
Lemma look_id fields s f : clean fields -> look fields s = Ok f -> look fields (id f) = Ok f.
Proof.
  intros C L. destruct (look_matches _ _ _ L) as (I & M & _). unfold look in *. destruct (filter (matches s) fields) as [|a [|b r]] eqn:E; try discriminate. injection L as ->.
  assert (ID : forall f', matches (id f) f' = String.eqb (c_view f') (c_view f) && String.eqb (label f') (label f)).
  { intros f'. destruct (C f I) as (A & B & D). unfold matches, id. change (c_view f ++ "." ++ label f)%string with (c_view f ++ String dot (label f))%string. rewrite field_name_parts_qualified by assumption. now rewrite D. }
  rewrite (filter_one (matches s) (matches (id f)) fields f E); [reflexivity|rewrite ID, !String.eqb_refl; reflexivity|].
  intros x X Q. rewrite ID in Q. apply andb_prop in Q. destruct Q as [Q1 Q2]. apply String.eqb_eq in Q1, Q2. unfold matches in M |- *. destruct (field_name_parts s) as [[e v] n]. now rewrite Q1, Q2.
Qed.

(** ** Looking up with memory *)
Section Memory.
  Variable fields : list cfield.
  (** a session that has only looked things up *)
  Definition Inv (x : session) : Prop :=
    (forall b, s_objects x b = fields) /\ forall s i, assoc s (s_kept x) = Some i -> exists f, look fields s = Ok f /\ nth_error fields (snd i) = Some f.
  Lemma found_look s : match found s fields with Ok i => exists f, look fields s = Ok f /\ nth_error fields i = Some f | Err e => look fields s = Err e end.
  Proof.
    assert (G : forall l k, map (fun i => nth_error l (i - k)) (filter (fun i => match nth_error l (i - k) with Some f => matches s f | None => false end) (seq k (List.length l))) = map Some (filter (matches s) l)).
    { induction l as [|a l IH]; intros k; [reflexivity|]. cbn [List.length seq filter]. rewrite Nat.sub_diag. cbn [nth_error].
      assert (E : filter (fun i => match nth_error (a :: l) (i - k) with Some f => matches s f | None => false end) (seq (S k) (List.length l)) = filter (fun i => match nth_error l (i - S k) with Some f => matches s f | None => false end) (seq (S k) (List.length l))).
      { apply filter_ext_in. intros i I. apply in_seq in I. replace (i - k) with (S (i - S k)) by lia. reflexivity. }
      assert (F : forall L, (forall i, In i L -> S k <= i) -> map (fun i => nth_error (a :: l) (i - k)) L = map (fun i => nth_error l (i - S k)) L).
      { intros L HL. apply map_ext_in. intros i I. apply HL in I. replace (i - k) with (S (i - S k)) by lia. reflexivity. }
      rewrite E. destruct (matches s a); cbn [map]; [rewrite Nat.sub_diag; cbn [nth_error]; f_equal|]; rewrite F, IH; try reflexivity; intros i I; apply filter_In in I; destruct I as [I _]; apply in_seq in I; lia. }
    specialize (G fields 0). unfold found, look.
    assert (E : filter (fun i => match nth_error fields (i - 0) with Some f => matches s f | None => false end) (seq 0 (List.length fields)) = filter (fun i => match nth_error fields i with Some f => matches s f | None => false end) (seq 0 (List.length fields))) by (apply filter_ext; intros i; now rewrite Nat.sub_0_r).
    rewrite E in G. clear E. destruct (filter _ (seq 0 (List.length fields))) as [|i [|j r]]; destruct (filter (matches s) fields) as [|f [|f' r']]; try discriminate G; try reflexivity. exists f. split; [reflexivity|]. cbn in G. injection G as G. now rewrite Nat.sub_0_r in G.
  Qed.
  Definition R {A} (m : M session A) (p : M unit A) : Prop := forall x, Inv x -> fst (m x) = fst (p tt) /\ Inv (snd (m x)).
  Notation lookup := (plain_field fields).
  Lemma plain_look s u : lookup s u = (look fields s, u).
  Proof. reflexivity. Qed.
  Lemma R_get s : R (kept_field s) (lookup s).
  Proof.
    intros x [O K]. rewrite plain_look. unfold kept_field, locate. destruct (assoc s (s_kept x)) as [i|] eqn:A.
    - destruct (K s i A) as (f & L & N). cbn [fst snd]. split; [|split; assumption]. unfold object. now rewrite O, N, L.
    - rewrite O. pose proof (found_look s) as F. destruct (found s fields) as [i|e].
      + destruct F as (f & L & N). cbn [fst snd]. unfold object. cbn [s_objects fst snd]. rewrite O, N, L. split; [reflexivity|]. split; [exact O|]. intros s' i'. cbn [s_kept assoc]. destruct (String.eqb s' s) eqn:E; [|apply K]. apply String.eqb_eq in E. subst s'. intros H. injection H as <-. exists f. auto.
      + cbn [fst snd]. rewrite F. split; [reflexivity|split; assumption].
  Qed.
  Lemma R_ret {A} (a : A) : R (ret session a) (ret unit a).
  Proof. intros x I. split; [reflexivity|exact I]. Qed.
  Lemma R_raise {A} e : R (@raise session A e) (raise unit e).
  Proof. intros x I. split; [reflexivity|exact I]. Qed.
  Lemma R_bind {A B} (m : M session A) (p : M unit A) (k : A -> M session B) (q : A -> M unit B) :
    R m p -> (forall a, fst (p tt) = Ok a -> R (k a) (q a)) -> R (andthen session m k) (andthen unit p q).
  Proof.
    intros RM RK x I. destruct (RM x I) as [E J]. unfold andthen. destruct (m x) as [[a|e] x'], (p tt) as [[b|e'] []]; cbn [fst snd] in *; try discriminate E.
    - injection E as <-. exact (RK a eq_refl x' J).
    - injection E as <-. auto.
  Qed.
  Lemma R_each {A B} (f : A -> M session B) (q : A -> M unit B) l : (forall a, In a l -> R (f a) (q a)) -> R (each session f l) (each unit q l).
  Proof.
    induction l as [|a l IH]; intros H; [apply R_ret|]. cbn [each]. apply R_bind; [apply H; now left|]. intros b _. apply R_bind; [apply IH; intros c C; apply H; now right|]. intros bs _. apply R_ret.
  Qed.
  Lemma R_fold {A B} (f : B -> A -> M session B) (q : B -> A -> M unit B) l : (forall b a, In a l -> R (f b a) (q b a)) -> forall b, R (fold session f l b) (fold unit q l b).
  Proof.
    induction l as [|a l IH]; intros H b; [apply R_ret|]. cbn [fold]. apply R_bind; [apply H; now left|]. intros c _. apply IH. intros b' a' I. apply H. now right.
  Qed.
  Variable ms : list cmet.
  Lemma R_default f : R (is_default session ms f) (is_default unit ms f).
  Proof. unfold is_default. destruct (date_ids ms); [apply R_ret|apply R_raise]. Qed.
  Lemma R_first dims : R (first_group session kept_field ms dims) (first_group unit lookup ms dims).
  Proof. induction dims as [|d r IH]; [apply R_ret|]. cbn [first_group]. apply R_bind; [apply R_get|]. intros f _. apply R_bind; [apply R_default|]. intros [|] _; [apply R_ret|exact IH]. Qed.
  Section G.
    Variable g : option string.
    Notation nowrite := (fun (_ : string) (_ : option string) (u : unit) => (Ok tt, u)).
    Lemma R_date m : R (default_date session kept_field g m) (default_date unit lookup g m).
    Proof. intros x I. unfold default_date. destruct (R_get (date_key m (show g)) x I) as [E J]. destruct (kept_field (date_key m (show g)) x) as [[f|e] x'], (lookup (date_key m (show g)) tt) as [[f'|e'] []]; cbn [fst snd] in *; try discriminate E; [injection E as <-; auto|auto]. Qed.
    Lemma R_spine first dims : R (spine_by_time_frame session kept_field g first dims) (spine_by_time_frame unit lookup g first dims).
    Proof. pose proof (R_date first) as D. revert D. unfold spine_by_time_frame. destruct g as [t|]; intros D; [|apply R_ret]. destruct (negb _); [apply R_ret|]. destruct (String.eqb t "date"); [apply R_ret|]. apply R_bind; [exact D|]. intros f _. apply R_ret. Qed.
    (** no condition of the metric is moved to another timeframe *)
    Definition steady (m : cmet) : Prop := forall w r f, m_where m = Some w -> In r (where_refs w) -> look fields r = Ok f -> changes g m f = false.
    Lemma R_field_of w : R (field_of session kept_field w) (field_of unit lookup w).
    Proof. unfold field_of. destruct (w_field w); [apply R_get|apply R_raise]. Qed.
    Lemma R_subquery m dims wh : R (subquery session kept_field ms g m dims wh) (subquery unit lookup ms g m dims wh).
    Proof.
      unfold subquery. apply R_bind; [apply R_each; intros; apply R_get|]. intros fs _. apply R_bind; [apply R_date|]. intros d _. apply R_bind.
      - destruct (m_where m) as [w|]; [|apply R_ret]. destruct (String.eqb w ""); [apply R_ret|]. apply R_each. intros r _. unfold where_field. apply R_bind; [apply R_get|]. intros f _. destruct (changes g m f); [apply R_get|apply R_ret].
      - intros ws _. apply R_bind; [|intros kept _; apply R_ret]. apply R_each. intros w _. apply R_bind; [apply R_field_of|]. intros f _. apply R_bind; [apply R_default|]. intros b _. apply R_ret.
    Qed.
    Lemma R_aggregated first m dims wh : steady m -> R (aggregated session kept_field write_group ms g first m dims wh) (aggregated unit lookup nowrite ms g first m dims wh).
    Proof.
      intros ST. unfold aggregated. apply R_bind; [apply R_date|]. intros d _. apply R_bind; [apply R_spine|]. intros sp _. apply R_bind.
      - destruct (m_where m) as [w|] eqn:W; [|apply R_ret]. destruct (String.eqb w ""); [apply R_ret|]. apply R_bind; [|intros t _; apply R_ret]. unfold replace_where. apply R_fold. intros t r I. apply R_bind; [apply R_get|]. intros f F. cbn in F. rewrite (ST w r f W I F). apply R_bind; [apply R_ret|]. intros f' _. apply R_ret.
      - intros cw _. apply R_bind.
        + apply R_each. intros n _. apply R_bind; [apply R_get|]. intros f _. apply R_bind; [|intros s _; apply R_ret]. unfold source_of. apply R_bind; [apply R_default|]. intros b _. apply R_ret.
        + intros cs _. apply R_bind; [|intros hs _; apply R_ret]. apply R_each. intros w _. unfold having_of. apply R_bind; [apply R_field_of|]. intros f _. apply R_bind; [apply R_default|]. intros [|] _; [|apply R_ret]. apply R_bind; [apply R_get|]. intros _ _. apply R_ret.
    Qed.
    Lemma R_sub_queries first wh todo : (forall m, In m todo -> steady m) -> forall dims, R (sub_queries session kept_field write_group ms g first todo dims wh) (sub_queries unit lookup nowrite ms g first todo dims wh).
    Proof.
      induction todo as [|m r IH]; intros ST dims; [apply R_ret|]. cbn [sub_queries]. apply R_bind; [apply R_subquery|]. intros s _. apply R_bind; [apply R_aggregated, ST; now left|]. intros a _. apply R_bind; [apply IH; intros m' I; apply ST; now right|]. intros q _. apply R_ret.
    Qed.
  End G.
End Memory.
(** the conditions of no metric follow the timeframe of the query *)
Definition steady_query (fields : list cfield) (ms : list cmet) (dims : list string) : Prop :=
  forall g m, fst (first_group unit (plain_field fields) ms dims tt) = Ok g -> In m ms -> steady fields g m.
(** C72: after any such queries, the sub queries are those of a project that was never used *)
Theorem C72_same_as_fresh fields ms dims wh x : Inv fields x -> steady_query fields ms dims ->
  fst (run_plan ms dims wh x) = plain_plan fields ms dims wh /\ Inv fields (snd (run_plan ms dims wh x)).
Proof.
  intros I ST. unfold run_plan, plain_plan, plan. destruct ms as [|first r] eqn:E; [split; [reflexivity|exact I]|]. rewrite <- E in *. revert x I.
  change (R fields (andthen session (first_group session kept_field ms dims) (fun g => sub_queries session kept_field write_group ms g first ms dims wh)) (andthen unit (first_group unit (plain_field fields) ms dims) (fun g => sub_queries unit (plain_field fields) (fun _ _ u => (Ok tt, u)) ms g first ms dims wh))).
  apply R_bind; [apply R_first|]. intros g G. apply R_sub_queries. intros m M. exact (ST g m G M).
Qed.
Lemma fresh_inv fields : Inv fields (fresh fields).
Proof. split; [reflexivity|]. intros s i H. discriminate H. Qed.
Fixpoint after (qs : list (list cmet * list string * list cond)) (x : session) : session :=
  match qs with [] => x | (ms, dims, wh) :: r => after r (snd (run_plan ms dims wh x)) end.
Theorem C72_any_history fields qs ms dims wh : Forall (fun q => steady_query fields (fst (fst q)) (snd (fst q))) qs -> steady_query fields ms dims ->
  fst (run_plan ms dims wh (after qs (fresh fields))) = plain_plan fields ms dims wh.
Proof.
  intros F ST. apply C72_same_as_fresh; [|exact ST]. assert (I : Inv fields (fresh fields)) by apply fresh_inv. revert I. generalize (fresh fields). induction F as [|[[a b] c] qs S0 F IH]; intros x I; [exact I|]. cbn [after]. apply IH. now apply C72_same_as_fresh.
Qed.

(** a timeframe written to a field stays: afterwards its name denotes the field in that timeframe, for every later query *)
Lemma write_same i h l f : nth_error l i = Some f -> nth_error (write i h l) i = Some (h f).
Proof. revert i. induction l as [|a l IH]; intros [|i]; try discriminate; cbn; [intros H; now injection H as ->|apply IH]. Qed.
Theorem C72_write_stays_refuted fields x r f g : Inv fields x -> look fields r = Ok f -> c_group f <> g -> fst (kept_field r (snd (write_group r g x))) = Ok (in_group f g) /\ in_group f g <> f.
Proof.
  intros I L NE. split; [|intros E; apply NE; now rewrite <- E]. destruct I as [O K]. unfold write_group, locate. destruct (assoc r (s_kept x)) as [[b i]|] eqn:A.
  - destruct (K _ _ A) as (f' & L' & N). assert (f' = f) by congruence. subst f'. cbn [snd] in N. cbn [snd]. unfold kept_field, locate. cbn [s_kept]. rewrite A. unfold object. cbn [s_objects fst snd]. rewrite Bool.eqb_reflx, O. erewrite write_same by exact N. reflexivity.
  - rewrite O. pose proof (found_look fields r) as F. destruct (found r fields) as [i|e]; [|rewrite F in L; discriminate L]. destruct F as (f' & L' & N). assert (f' = f) by congruence. subst f'. cbn [snd s_objects s_kept]. unfold kept_field, locate. cbn [s_kept assoc]. rewrite String.eqb_refl. unfold object. cbn [s_objects fst snd]. rewrite Bool.eqb_reflx, O. erewrite write_same by exact N. reflexivity.
Qed.

(** ** The sub queries of a project that was not used before *)
Lemma ids_in x ms l : Forall2 (fun m y => (match m_date m with None => Err TypeError | Some d => Ok (if has_char dot d then d else (m_view m ++ "." ++ d)%string) end) = Ok y) ms l ->
  (In x l <-> exists m d, In m ms /\ m_date m = Some d /\ x = (if has_char dot d then d else m_view m ++ "." ++ d)%string).
Proof.
  induction 1 as [|m y ms l A F IH]; [split; [intros []|intros (m & d & [] & _)]|]. cbn [In]. rewrite IH. split.
  - intros [<-|(m' & d & I & D & X)].
    + destruct (m_date m) as [d|] eqn:D; [|discriminate A]. injection A as A. exists m, d. auto.
    + exists m', d. auto.
  - intros (m' & d & [->|I] & D & X); [left; rewrite D in A; assert (Z : Ok y = Ok x) by (rewrite <- A, X; reflexivity); now injection Z|right; exists m', d; auto].
Qed.
Section Plain.
  Variable fields : list cfield.
  Notation lookup := (plain_field fields).
  Notation nowrite := (fun (_ : string) (_ : option string) (u : unit) => (Ok tt, u)).
  Variable ms : list cmet.
  (** the field is the default date of a metric, in some timeframe *)
  Definition date_of (f : cfield) : Prop :=
    exists m d, In m ms /\ m_date m = Some d /\ (c_view f ++ "." ++ c_name f)%string = (if has_char dot d then d else m_view m ++ "." ++ d)%string.
  Lemma uinv {A B} (p : M unit A) (q : A -> M unit B) b : fst (andthen unit p q tt) = Ok b -> exists a, fst (p tt) = Ok a /\ fst (q a tt) = Ok b.
  Proof. unfold andthen. destruct (p tt) as [[a|e] []]; cbn; [intros H; exists a; auto|discriminate]. Qed.
  Lemma each_inv {A B} (f : A -> M unit B) l : forall bs, fst (each unit f l tt) = Ok bs -> Forall2 (fun a b => fst (f a tt) = Ok b) l bs.
  Proof.
    induction l as [|a l IH]; intros bs H; [injection H as <-; constructor|]. cbn [each] in H. apply uinv in H. destruct H as (b & A1 & H). apply uinv in H. destruct H as (r & B1 & H). injection H as <-. constructor; [exact A1|now apply IH].
  Qed.
  Lemma default_inv f b : fst (is_default unit ms f tt) = Ok b -> (b = true <-> date_of f).
  Proof.
    unfold is_default. destruct (date_ids ms) as [l|e] eqn:E; [|discriminate]. intros H. injection H as <-. rewrite mem_In. unfold date_ids in E. apply mapM_ok in E. unfold date_of. apply (ids_in _ _ _ E).
  Qed.
  Definition source_spec (f : cfield) (s : source) : Prop :=
    date_of f /\ s = FromSpine \/ ~ date_of f /\ s = if c_measure f then Aggregate (column f) else FromColumn (column f).
  Lemma source_inv f s : fst (source_of unit ms f tt) = Ok s -> source_spec f s.
  Proof. unfold source_of. intros H. apply uinv in H. destruct H as (b & D & H). apply default_inv in D. injection H as <-. destruct b; [left|right]; split; auto; [now apply D|]. intros X. apply D in X. discriminate X. Qed.
  (** the dates among the dimensions have one timeframe, a period; without any it is the day *)
  Definition one_timeframe (dims : list string) (g : string) : Prop :=
    In g ["date"; "week"; "month"; "quarter"; "year"] /\ (forall d f, In d dims -> look fields d = Ok f -> date_of f -> c_group f = Some g) /\
    (g = "date" \/ exists d f, In d dims /\ look fields d = Ok f /\ date_of f).
  Lemma first_inv dims g h : one_timeframe dims g -> fst (first_group unit lookup ms dims tt) = Ok h -> h = Some g.
  Proof.
    intros (_ & S & E). induction dims as [|d r IH]; intros H.
    - cbn in H. injection H as <-. destruct E as [->|(d & f & [] & _)]. reflexivity.
    - cbn [first_group] in H. apply uinv in H. destruct H as (f & F & H). apply uinv in H. destruct H as (b & D & H). apply default_inv in D. change (look fields d = Ok f) in F. destruct b.
      + injection H as <-. apply (S d f); [now left|exact F|now apply D].
      + apply IH; [intros d' f' I; apply S; now right| |exact H]. destruct E as [E|(d' & f' & [->|I] & L & X)]; [now left| |right; exists d', f'; auto]. exfalso. assert (f' = f) by congruence. subst f'. apply D in X. discriminate X.
  Qed.
  (** ** Specification: the two sub queries of a metric, for dates in timeframe [g] *)
  Definition split_by (wh : list cond) (bs : list bool) (b : bool) : list cond := map fst (filter (fun x => Bool.eqb (snd x) b) (combine wh bs)).
  Definition date_condition (w : cond) (b : bool) : Prop := exists n f, w_field w = Some n /\ look fields n = Ok f /\ (b = true <-> date_of f).
  Record described (first : cmet) (g : string) (dims : list string) (wh : list cond) (m : cmet) (q : list string * list cond * aggregate) : Prop := {
    (* the date of the metric, in the timeframe, is compared with the spine *)
    d_date : exists d, look fields (date_key m g) = Ok d /\ a_date (snd q) = column d;
    (* the spine has the periods of the timeframe *)
    d_spine : g = "date" /\ a_spine (snd q) = Days \/ g <> "date" /\ exists f0, look fields (date_key first g) = Ok f0 /\ a_spine (snd q) = PeriodsOf f0;
    (* a column for the measure and for every dimension, under its name; a date is the one of the spine *)
    d_columns : Forall2 (fun n c => exists f, look fields n = Ok f /\ fst c = column f /\ source_spec f (snd c)) (m_measure m :: dims) (a_columns (snd q));
    (* grouped by every column that is no aggregate *)
    d_groups : forall s, In s (a_group (snd q)) <-> In s (map snd (a_columns (snd q))) /\ forall c, s <> Aggregate c;
    (* every condition is applied once: to the rows, or to the spine if it is on a date *)
    d_conditions : exists bs, Forall2 date_condition wh bs /\ snd (fst q) = split_by wh bs false /\
                     (In FromSpine (map snd (a_columns (snd q))) -> map snd (a_having (snd q)) = split_by wh bs true) /\
                     (forall t w, In (t, w) (a_having (snd q)) -> exists n f, w_field w = Some n /\ look fields n = Ok f /\ c_group f = t)
  }.
  Lemma each2 {A B} (P : A -> B -> Prop) (f : A -> M unit B) l bs : fst (each unit f l tt) = Ok bs -> (forall a b, fst (f a tt) = Ok b -> P a b) -> Forall2 P l bs.
  Proof. intros H I. apply each_inv in H. induction H; constructor; auto. Qed.
  Lemma date_inv g m d : fst (default_date unit lookup g m tt) = Ok d -> look fields (date_key m (show g)) = Ok d.
  Proof. unfold default_date. rewrite plain_look. destruct (look fields (date_key m (show g))); cbn; [auto|discriminate]. Qed.
  Lemma field_inv w f : fst (field_of unit lookup w tt) = Ok f -> exists n, w_field w = Some n /\ look fields n = Ok f.
  Proof. unfold field_of. destruct (w_field w) as [n|]; [|discriminate]. intros H. exists n. auto. Qed.
  Lemma valid_group g : In g ["date"; "week"; "month"; "quarter"; "year"] -> mem g valid = true.
  Proof. intros I. now apply mem_In. Qed.
  Lemma kept_spec wh : forall kept, Forall2 (fun w l => fst (andthen unit (field_of unit lookup w) (fun f => andthen unit (is_default unit ms f) (fun b => ret unit (if b : bool then [] else [w]))) tt) = Ok l) wh kept ->
    exists bs, Forall2 date_condition wh bs /\ List.concat kept = split_by wh bs false.
  Proof.
    induction wh as [|w wh IH]; intros kept F; inversion F as [|? l0 ? kept' A B]; subst; [exists []; split; [constructor|reflexivity]|]. destruct (IH _ B) as (bs & X & Y). apply uinv in A. destruct A as (f & A1 & A). apply uinv in A. destruct A as (b & A2 & A). injection A as <-. apply field_inv in A1. destruct A1 as (n & N & L). apply default_inv in A2. exists (b :: bs). split; [constructor; [exists n, f; auto|exact X]|].
    unfold split_by in *. cbn [combine filter snd List.concat]. destruct b; cbn [Bool.eqb app map fst]; [exact Y|now rewrite Y].
  Qed.
  Lemma having_spec d wh : forall bs hs, Forall2 date_condition wh bs -> Forall2 (fun w l => fst (having_of unit lookup ms d w tt) = Ok l) wh hs ->
    map snd (List.concat hs) = split_by wh bs true /\ forall t w, In (t, w) (List.concat hs) -> exists n f, w_field w = Some n /\ look fields n = Ok f /\ c_group f = t.
  Proof.
    induction wh as [|w wh IH]; intros bs hs F H.
    { inversion H. split; [inversion F; reflexivity|intros t w []]. }
    inversion F as [|? b ? bs' D DS]. inversion H as [|? l0 ? hs' A AS]. subst. destruct (IH _ _ DS AS) as [E T]. unfold having_of in A. apply uinv in A. destruct A as (f & A1 & A). apply uinv in A. destruct A as (b' & A2 & A). apply field_inv in A1. destruct A1 as (n & N & L). apply default_inv in A2. destruct D as (n' & f' & N' & L' & D). assert (n' = n) by congruence. subst n'. assert (f' = f) by congruence. subst f'.
    assert (EB : b = b') by (destruct b, b'; try reflexivity; exfalso; [assert (X : date_of f) by (now apply D); apply A2 in X; discriminate X|assert (X : date_of f) by (now apply A2); apply D in X; discriminate X]). subst b'. unfold split_by in *. cbn [combine filter snd List.concat]. destruct b; cbn [Bool.eqb map fst].
    - apply uinv in A. destruct A as (u & _ & A). injection A as <-. cbn [app map snd]. split; [now rewrite E|]. intros t w' [X|I]; [injection X as <- <-; exists n, f; auto|now apply T].
    - injection A as <-. cbn [app]. auto.
  Qed.
  Lemma groups_spec (cs : list (string * source)) s : In s (filter from_column (map snd cs) ++ (if existsb (fun c => from_spine (snd c)) cs then [FromSpine] else [])) <-> In s (map snd cs) /\ forall c, s <> Aggregate c.
  Proof.
    rewrite in_app_iff, filter_In. assert (X : existsb (fun c : string * source => from_spine (snd c)) cs = true <-> In FromSpine (map snd cs)).
    { rewrite existsb_exists, in_map_iff. split; intros (c & A & B); exists c; [destruct (snd c) eqn:E; try discriminate B; auto|split; [exact B|now rewrite A]]. }
    destruct (existsb _ cs).
    - split; [intros [[A B]|[<-|[]]]; split; auto; try (now apply X); try discriminate; intros c ->; discriminate B|]. intros [A B]. destruct s as [|c|c]; [right; now left|left; auto|destruct (B c eq_refl)].
    - split; [intros [[A B]|[]]; split; [exact A|intros c ->; discriminate B]|]. intros [A B]. destruct s as [|c|c]; [apply X in A; discriminate A|left; auto|destruct (B c eq_refl)].
  Qed.
  Lemma spine_inv g first dims sp : In g ["date"; "week"; "month"; "quarter"; "year"] -> fst (spine_by_time_frame unit lookup (Some g) first dims tt) = Ok sp ->
    snd sp = dims /\ (g = "date" /\ fst sp = Days \/ g <> "date" /\ exists f0, look fields (date_key first g) = Ok f0 /\ fst sp = PeriodsOf f0).
  Proof.
    intros G H. unfold spine_by_time_frame in H. rewrite (valid_group g G) in H. cbn [negb] in H. destruct (String.eqb g "date") eqn:E.
    - apply String.eqb_eq in E. injection H as <-. auto.
    - apply String.eqb_neq in E. apply uinv in H. destruct H as (f & F & H). apply date_inv in F. injection H as <-. split; [reflexivity|]. right. split; [exact E|]. exists f. auto.
  Qed.
  Lemma one_described first g dims wh m s a : In g ["date"; "week"; "month"; "quarter"; "year"] -> fst (subquery unit lookup ms (Some g) m dims wh tt) = Ok s -> fst (aggregated unit lookup nowrite ms (Some g) first m dims wh tt) = Ok a ->
    snd a = dims /\ described first g dims wh m (fst s, snd s, fst a).
  Proof.
    intros G S A. unfold subquery in S. apply uinv in S. destruct S as (fs & _ & S). apply uinv in S. destruct S as (d0 & _ & S). apply uinv in S. destruct S as (ws & _ & S). apply uinv in S. destruct S as (kept & K & S). injection S as <-. apply each_inv, kept_spec in K. destruct K as (bs & DC & KE).
    unfold aggregated in A. apply uinv in A. destruct A as (d & D & A). apply date_inv in D. cbn [show] in D. apply uinv in A. destruct A as (sp & SP & A). apply (spine_inv g first dims sp G) in SP. destruct SP as [SD SP]. apply uinv in A. destruct A as (cw & _ & A). apply uinv in A. destruct A as (cs & CS & A). apply uinv in A. destruct A as (hs & HS & A). injection A as <-. apply each_inv in HS. destruct (having_spec d wh bs hs DC HS) as [HE HT]. cbn [fst snd]. split; [exact SD|]. rewrite SD in CS. split; cbn [a_date a_spine a_columns a_group a_having fst snd].
    - exists d. auto.
    - exact SP.
    - eapply each2; [exact CS|]. intros n c H. apply uinv in H. destruct H as (f & F & H). apply uinv in H. destruct H as (so & SO & H). injection H as <-. exists f. split; [exact F|]. split; [reflexivity|]. now apply source_inv.
    - intros so. apply groups_spec.
    - exists bs. split; [exact DC|]. split; [exact KE|]. split.
      + intros P. replace (existsb (fun c => from_spine (snd c)) cs) with true; [exact HE|]. symmetry. apply existsb_exists. apply in_map_iff in P. destruct P as (c & X & Y). exists c. split; [exact Y|now rewrite X].
      + intros t w I. apply HT. destruct (existsb _ cs); [exact I|destruct I].
  Qed.
  (** C72: with dates in one timeframe, every metric is accumulated by its own default date over the periods of that timeframe,
      and the dimensions are those asked for *)
  Theorem C72_sub_queries dims wh g qs dims' : one_timeframe dims g -> plain_plan fields ms dims wh = Ok (qs, dims') -> dims' = dims /\ forall first r, ms = first :: r -> Forall2 (described first g dims wh) ms qs.
  Proof.
    intros OT H. unfold plain_plan, plan in H. destruct ms as [|first r] eqn:E; [injection H as <- <-; split; [reflexivity|discriminate]|]. rewrite <- E in *.
    apply uinv in H. destruct H as (h & G & H). assert (h = Some g) by (apply (first_inv dims g); [exact OT|exact G]). subst h. destruct OT as (V & _). clear G.
    assert (X : forall todo qs dims', fst (sub_queries unit lookup nowrite ms (Some g) first todo dims wh tt) = Ok (qs, dims') -> dims' = dims /\ Forall2 (described first g dims wh) todo qs).
    { induction todo as [|m todo IH]; intros qs0 dims0 Q; [cbn in Q; injection Q as <- <-; split; [reflexivity|constructor]|]. cbn [sub_queries] in Q. apply uinv in Q. destruct Q as (s & S & Q). apply uinv in Q. destruct Q as (a & A & Q). destruct (one_described first g dims wh m s a V S A) as [SD DE]. rewrite SD in Q. apply uinv in Q. destruct Q as ([q d'] & Q1 & Q). injection Q as <- <-. destruct (IH _ _ Q1) as [D1 F]. split; [exact D1|constructor; assumption]. }
    destruct (X _ _ _ H) as [D F]. split; [exact D|]. intros first' r' E'. rewrite E in E'. injection E' as <- <-. exact F.
  Qed.
End Plain.

Lemma dedup_In l x : In x (dedup l) <-> In x l.
Proof.
  unfold dedup, dedup_by. pose proof (dedup_by_aux_keys (fun s : string => s) [] l x) as H. rewrite !map_id in H.
  rewrite H. simpl. tauto.
Qed.

(** ** Every column a sub query uses is there *)
Section Scope.
  Variable fields : list cfield.
  Notation lookup := (plain_field fields).
  Notation nowrite := (fun (_ : string) (_ : option string) (u : unit) => (Ok tt, u)).
  Variable ms : list cmet.
  (** the first sub query, asked for the dimensions [sd], has a column [c] *)
  Definition provides (sd : list string) (c : string) : Prop := exists s f, In s sd /\ look fields s = Ok f /\ column f = c.
  Lemma column_in l sd f : (forall x, In x l -> exists s, look fields s = Ok x) -> clean fields -> sd = map id l -> In f l -> provides sd (column f).
  Proof. intros F C -> I. destruct (F f I) as (s & L). exists (id f), f. split; [now apply in_map|]. split; [exact (look_id fields s f C L)|reflexivity]. Qed.
  Lemma lower_append a b : lower (a ++ b)%string = (lower a ++ lower b)%string.
  Proof. induction a as [|c a IH]; [reflexivity|]. cbn. now rewrite IH. Qed.
  Lemma lower_length a : String.length (lower a) = String.length a.
  Proof. induction a as [|c a IH]; [reflexivity|]. cbn. now rewrite IH. Qed.
  Lemma append_eq a : forall b c d, String.length a = String.length c -> (a ++ b)%string = (c ++ d)%string -> a = c.
  Proof. induction a as [|x a IH]; intros b [|y c] d L E; try discriminate L; [reflexivity|]. cbn in L, E. injection L as L. injection E as -> E. f_equal. exact (IH b c d L E). Qed.
  Definition moved (g : string) (m : cmet) (f : cfield) : cfield := if changes (Some g) m f then in_group f (Some g) else f.
  Lemma moved_column g m r f f' : clean fields -> In g ["date"; "week"; "month"; "quarter"; "year"] -> look fields r = Ok f -> fst (where_field unit lookup (Some g) m r tt) = Ok f' -> column f' = column (moved g m f) /\ exists s, look fields s = Ok f'.
  Proof.
    intros C G L H. unfold where_field in H. apply uinv in H. destruct H as (f0 & L0 & H). assert (f0 = f) by (cbn in L0; change (look fields r = Ok f0) in L0; congruence). subst f0. unfold moved. destruct (changes (Some g) m f) eqn:CH; [|injection H as <-; eauto].
    change (look fields (c_view f ++ "." ++ c_name f ++ "_" ++ show (Some g))%string = Ok f') in H. cbn [show] in H. split; [|eauto]. destruct (look_matches _ _ _ L) as (I & _). destruct (look_matches _ _ _ H) as (_ & MM & _). destruct (C f I) as (DV & DL & LL). unfold changes in CH. apply andb_prop in CH. destruct CH as [CH _]. apply andb_prop in CH. destruct CH as [IG _]. unfold is_group in IG. destruct (c_group f) as [t|] eqn:GR; [|discriminate IG]. unfold label in DL, LL. rewrite GR in DL, LL.
    assert (DN : has_char dot (c_name f) = false) by (rewrite has_char_app in DL; apply orb_false_iff in DL; tauto).
    assert (LN : lower (c_name f) = c_name f) by (rewrite lower_append in LL; apply append_eq in LL; [exact LL|apply lower_length]).
    assert (DG : has_char dot (c_name f ++ "_" ++ g)%string = false /\ lower (c_name f ++ "_" ++ g)%string = (c_name f ++ "_" ++ g)%string).
    { rewrite has_char_app, DN, lower_append, LN. destruct G as [<-|[<-|[<-|[<-|[<-|[]]]]]]; split; reflexivity. }
    destruct DG as [DG LG]. unfold matches in MM. change (c_view f ++ "." ++ c_name f ++ "_" ++ g)%string with (c_view f ++ String dot (c_name f ++ "_" ++ g))%string in MM. rewrite field_name_parts_qualified in MM by assumption. rewrite LG in MM. apply andb_prop in MM. destruct MM as [M1 M2]. apply String.eqb_eq in M1, M2. unfold column. now rewrite M1, M2.
  Qed.
  Lemma one_scoped first g dims wh m s a : clean fields -> In g ["date"; "week"; "month"; "quarter"; "year"] ->
    (forall d f, In d dims -> look fields d = Ok f -> date_of ms f -> c_group f = Some g) ->
    (forall d, look fields (date_key m g) = Ok d -> date_of ms d /\ c_group d = Some g) ->
    fst (subquery unit lookup ms (Some g) m dims wh tt) = Ok s -> fst (aggregated unit lookup nowrite ms (Some g) first m dims wh tt) = Ok a ->
    provides (fst s) (a_date (fst a)) /\
    (forall n c, In (n, FromColumn c) (a_columns (fst a)) -> provides (fst s) c \/ exists mf, look fields (m_measure m) = Ok mf /\ c = column mf) /\
    (forall n c, In (n, Aggregate c) (a_columns (fst a)) -> provides (fst s) c \/ exists mf, look fields (m_measure m) = Ok mf /\ c = column mf) /\
    (forall w r f, m_where m = Some w -> w <> "" -> In r (where_refs w) -> look fields r = Ok f -> provides (fst s) (column (moved g m f))).
  Proof.
    intros C G ONE DATES S A. destruct (one_described fields ms first g dims wh m s a G S A) as [SD DE].
    unfold subquery in S. apply uinv in S. destruct S as (fs & FS & S). apply uinv in S. destruct S as (d & D & S). apply uinv in S. destruct S as (ws & WS & S). apply uinv in S. destruct S as (kept & K & S). injection S as <-. apply each_inv in FS. apply date_inv in D. cbn [show] in D. cbn [fst].
    set (fs1 := if existsb (same_field d) fs then fs else fs ++ [d]) in *.
    assert (FOUND : forall f, In f fs -> exists n, In n dims /\ look fields n = Ok f).
    { clear - FS. induction FS as [|n f dims fs A F IH]; intros x I; [destruct I|]. destruct I as [<-|I]; [exists n; split; [now left|exact A]|]. destruct (IH x I) as (n' & J & L). exists n'. split; [now right|exact L]. }
    assert (WF : forall f', In f' ws -> exists s, look fields s = Ok f').
    { intros f' I. destruct (m_where m) as [w|]; [|injection WS as <-; destruct I]. destruct (String.eqb w ""); [injection WS as <-; destruct I|]. apply each_inv in WS. clear - WS I. induction WS as [|r f rs ws A F IH]; [destruct I|]. destruct I as [<-|I]; [|now apply IH]. unfold where_field in A. apply uinv in A. destruct A as (f0 & L0 & A). destruct (changes (Some g) m f0); [exists (c_view f0 ++ "." ++ c_name f0 ++ "_" ++ g)%string; exact A|injection A as <-; exists r; exact L0]. }
    assert (ALL : forall f, In f (fs1 ++ ws) -> exists s, look fields s = Ok f).
    { intros f I. apply in_app_iff in I. destruct I as [I|I]; [|now apply WF]. unfold fs1 in I. destruct (existsb (same_field d) fs); [destruct (FOUND f I) as (n & _ & L); eauto|]. apply in_app_iff in I. destruct I as [I|[<-|[]]]; [destruct (FOUND f I) as (n & _ & L); eauto|eauto]. }
    assert (IN1 : forall f, In f fs -> In f (fs1 ++ ws)) by (intros f I; apply in_app_iff; left; unfold fs1; destruct (existsb (same_field d) fs); [exact I|apply in_app_iff; now left]).
    assert (COLS : forall n c, In (n, c) (a_columns (fst a)) -> (c = FromSpine) \/ (exists f, In f fs /\ column f = n /\ (c = FromColumn (column f) \/ c = Aggregate (column f))) \/ exists mf, look fields (m_measure m) = Ok mf /\ (c = FromColumn (column mf) \/ c = Aggregate (column mf))).
    { pose proof (d_columns _ _ _ _ _ _ _ _ DE) as DC. cbn [snd] in DC. intros n c I. inversion DC as [|? [n0 c0] ? cols (mf & LM & E1 & SM) DR X1 X2]. rewrite <- X2 in I. destruct I as [I|I].
      - injection I as -> ->. cbn [snd] in SM. destruct SM as [[_ ->]|[_ ->]]; [now left|]. right. right. exists mf. split; [exact LM|]. destruct (c_measure mf); auto.
      - clear X2 X1 DC DE. revert fs FS fs1 ALL IN1 FOUND. clear - DR I. intros fs FS _ _ _ _. revert cols DR I. induction FS as [|x f dims fs A F IH]; intros cols DR I; inversion DR as [|? [n1 c1] ? cols' (f' & L & E1 & SM) DR' X1 X2]; subst; [destruct I|].
        change (look fields x = Ok f) in A. assert (f' = f) by congruence. subst f'. destruct I as [I|I].
        + injection I as -> ->. cbn [fst] in E1. destruct SM as [[_ E2]|[_ E2]]; cbn [snd] in E2; [now left|]. right. left. exists f. split; [now left|]. split; [auto|]. destruct (c_measure f); auto.
        + destruct (IH _ DR' I) as [X|[(f0 & J & X)|X]]; auto. right. left. exists f0. split; [now right|exact X]. }
    split; [|split; [|split]].
    - destruct (d_date _ _ _ _ _ _ _ _ DE) as (d' & D' & AD). cbn [fst snd] in AD. rewrite AD. assert (d' = d) by congruence. subst d'. destruct (existsb (same_field d) fs) eqn:EX.
      + apply existsb_exists in EX. destruct EX as (f & I & SF). unfold same_field in SF. apply andb_prop in SF. destruct SF as [N V]. apply String.eqb_eq in N, V. destruct (FOUND f I) as (n & J & L). destruct (DATES d D) as [DO GD]. assert (DF : date_of ms f) by (destruct DO as (m0 & d0 & X & Y & Z); exists m0, d0; rewrite <- V, <- N; auto).
        assert (CE : column d = column f) by (unfold column, label; rewrite GD, (ONE n f J L DF), N, V; reflexivity). rewrite CE. eapply column_in; eauto.
      + eapply column_in; eauto. apply in_app_iff. left. unfold fs1. apply in_app_iff. right. now left.
    - intros n c I. destruct (COLS _ _ I) as [X|[(f & J & E & [X|X])|(mf & L & [X|X])]]; try discriminate X; injection X as ->; [left; eapply column_in; eauto|right; eauto].
    - intros n c I. destruct (COLS _ _ I) as [X|[(f & J & E & [X|X])|(mf & L & [X|X])]]; try discriminate X; injection X as ->; [left; eapply column_in; eauto|right; eauto].
    - intros w r f W NE I L. rewrite W in WS. apply String.eqb_neq in NE. rewrite NE in WS. apply each_inv in WS.
      assert (X : exists f', In f' ws /\ fst (where_field unit lookup (Some g) m r tt) = Ok f').
      { clear - WS I. induction WS as [|x f rs ws A F IH]; [destruct I|]. destruct I as [->|I]; [exists f; split; [now left|exact A]|]. destruct (IH I) as (f' & J & X). exists f'. split; [now right|exact X]. }
      destruct X as (f' & J & X). destruct (moved_column g m r f f' C G L X) as [E _]. rewrite <- E. eapply column_in; eauto. apply in_app_iff. now right.
  Qed.
  (** C72: when the default dates are groups with the timeframe of the query, the second sub query of every metric only uses
      columns of the first: the date compared with the spine, every dimension, the measure and the fields of cumulative_where *)
  Theorem C72_in_scope dims wh g qs dims' : clean fields -> one_timeframe fields ms dims g -> (forall m d, In m ms -> look fields (date_key m g) = Ok d -> date_of ms d /\ c_group d = Some g) ->
    plain_plan fields ms dims wh = Ok (qs, dims') ->
    Forall2 (fun m q => provides (fst (fst q)) (a_date (snd q)) /\
      (forall n c, In (n, FromColumn c) (a_columns (snd q)) \/ In (n, Aggregate c) (a_columns (snd q)) -> provides (fst (fst q)) c \/ exists mf, look fields (m_measure m) = Ok mf /\ c = column mf) /\
      (forall w r f, m_where m = Some w -> w <> "" -> In r (where_refs w) -> look fields r = Ok f -> provides (fst (fst q)) (column (moved g m f)))) ms qs.
  Proof.
    intros C OT DATES H. unfold plain_plan, plan in H. destruct ms as [|first r] eqn:E; [injection H as <- <-; constructor|]. rewrite <- E in *.
    apply uinv in H. destruct H as (h & G & H). assert (h = Some g) by (apply (first_inv fields ms dims g); [exact OT|exact G]). subst h. destruct OT as (V & ONE & _). clear G.
    assert (X : forall todo qs dims', (forall m, In m todo -> In m ms) -> fst (sub_queries unit lookup nowrite ms (Some g) first todo dims wh tt) = Ok (qs, dims') -> Forall2 (fun m q => provides (fst (fst q)) (a_date (snd q)) /\
      (forall n c, In (n, FromColumn c) (a_columns (snd q)) \/ In (n, Aggregate c) (a_columns (snd q)) -> provides (fst (fst q)) c \/ exists mf, look fields (m_measure m) = Ok mf /\ c = column mf) /\
      (forall w r f, m_where m = Some w -> w <> "" -> In r (where_refs w) -> look fields r = Ok f -> provides (fst (fst q)) (column (moved g m f)))) todo qs).
    { induction todo as [|m todo IH]; intros qs0 dims0 SUB Q; [cbn in Q; injection Q as <- <-; constructor|]. cbn [sub_queries] in Q. apply uinv in Q. destruct Q as (s & S & Q). apply uinv in Q. destruct Q as (a & A & Q). destruct (one_described fields ms first g dims wh m s a V S A) as [SD _]. rewrite SD in Q. apply uinv in Q. destruct Q as ([q d'] & Q1 & Q). injection Q as <- <-.
      destruct (one_scoped first g dims wh m s a C V ONE (fun d => DATES m d (SUB m (or_introl eq_refl))) S A) as (P1 & P2 & P3 & P4). constructor; [|apply (IH q d'); [intros m' I; apply SUB; now right|exact Q1]]. cbn [fst snd]. split; [exact P1|]. split; [|exact P4]. intros n c [I|I]; [now apply (P2 n)|now apply (P3 n)]. }
    exact (X ms qs dims' (fun m I => I) H).
  Qed.
  (** C72: the text of cumulative_where: every reference is the column of the first sub query, and the date is that of the spine *)
  Definition where_part (g : string) (m : cmet) (s : seg) (p : string) : Prop :=
    match s with
    | Text t => p = t
    | Ref n => n = "cumulative_date" /\ p = "date_spine.date" \/ n <> "cumulative_date" /\ exists f, look fields n = Ok f /\ p = ("subquery_" ++ m_alias m ++ "." ++ column (moved g m f))%string
    end.
  Theorem C72_where_text g m segs t : Forall good_seg segs -> plain (m_alias m) = true -> (forall f, In f fields -> plain (column (moved g m f)) = true) ->
    fst (replace_where unit lookup nowrite (Some g) m (sql_of segs) tt) = Ok t -> exists parts, Forall2 (where_part g m) segs parts /\ t = cat parts.
  Proof.
    intros GS PA PC H. unfold replace_where in H.
    assert (SQ : sql_of segs = now [] segs) by (unfold sql_of, now; f_equal; apply map_ext; intros [u|n]; reflexivity).
    assert (CD : plain "cumulative_date" = true /\ has_char rbrace "cumulative_date" = false) by (split; reflexivity). destruct CD as [CD1 CD2].
    assert (RN : forall v, replace (placeholder "cumulative_date") v (sql_of segs) = now [("cumulative_date", v)] segs) by (intros v; rewrite SQ; apply replace_now; auto; discriminate).
    assert (RF : where_refs (sql_of segs) = filter (fun n => negb (String.eqb n "cumulative_date")) (refs_of segs)).
    { unfold where_refs. rewrite RN. set (erase := fun s => match s with Ref n => if String.eqb n "cumulative_date" then Text "" else Ref n | x => x end).
      assert (E : now [("cumulative_date", "")] segs = sql_of (map erase segs)).
      { unfold now, sql_of. f_equal. rewrite map_map. apply map_ext. intros [u|n]; [reflexivity|]. cbn [part assoc]. unfold erase. rewrite (String.eqb_sym n). rewrite (String.eqb_sym "cumulative_date"). destruct (String.eqb n "cumulative_date"); reflexivity. }
      rewrite E, refs_sql.
      - clear. induction segs as [|[u|n] segs IH]; [reflexivity|exact IH|]. cbn [map]. unfold refs_of in *. cbn [flat_map]. unfold erase at 1. destruct (String.eqb n "cumulative_date") eqn:X; cbn [flat_map app filter]; rewrite X; cbn [negb]; [exact IH|now rewrite IH].
      - apply Forall_forall. intros s I. apply in_map_iff in I. destruct I as (s0 & <- & I). rewrite Forall_forall in GS. specialize (GS s0 I). unfold erase. destruct s0 as [u|n]; [exact GS|]. destruct (String.eqb n "cumulative_date"); [reflexivity|exact GS]. }
    rewrite RN, RF in H.
    set (val := fun n v => n = "cumulative_date" /\ v = "date_spine.date" \/ n <> "cumulative_date" /\ exists f, look fields n = Ok f /\ v = ("subquery_" ++ m_alias m ++ "." ++ column (moved g m f))%string).
    assert (PV : forall n v, val n v -> plain v = true).
    { intros n v [[_ ->]|[_ (f & L & ->)]]; [reflexivity|]. rewrite !plain_app, PA. rewrite (PC f); [reflexivity|]. now apply look_matches in L. }
    assert (GR : forall n, In n (filter (fun n => negb (String.eqb n "cumulative_date")) (refs_of segs)) -> n <> "cumulative_date" /\ plain n = true /\ has_char rbrace n = false).
    { intros n I. apply filter_In in I. destruct I as [I N]. split; [now apply negb_true_iff, String.eqb_neq in N|]. unfold refs_of in I. apply in_flat_map in I. destruct I as ([u|n0] & J & X); [destruct X|]. destruct X as [<-|[]]. rewrite Forall_forall in GS. destruct (GS _ J) as (A & B & _). auto. }
    assert (MAIN : forall rs, (forall n, In n rs -> n <> "cumulative_date" /\ plain n = true /\ has_char rbrace n = false) -> forall done t, (forall n v, assoc n done = Some v -> val n v) -> 
      fst (fold unit (fun t r => andthen unit (lookup r) (fun f => andthen unit (if changes (Some g) m f then andthen unit (nowrite r (Some g)) (fun _ => ret unit (in_group f (Some g))) else ret unit f) (fun f' => ret unit (replace (placeholder r) (prefix m ++ "." ++ column f')%string t)))) rs (now done segs) tt) = Ok t ->
      exists done', (forall n v, assoc n done' = Some v -> val n v) /\ t = now done' segs /\ forall n, assoc n done <> None \/ In n rs -> assoc n done' <> None).
    { induction rs as [|r rs IH]; intros GR' done t0 DV F; [cbn in F; injection F as <-; exists done; split; [exact DV|split; [reflexivity|intros n [X|[]]; exact X]]|].
      cbn [fold] in F. apply uinv in F. destruct F as (t1 & F1 & F). apply uinv in F1. destruct F1 as (f & L & F1). change (look fields r = Ok f) in L. assert (T1 : t1 = replace (placeholder r) ("subquery_" ++ m_alias m ++ "." ++ column (moved g m f))%string (now done segs)).
      { unfold moved. assert (PX : forall x, (prefix m ++ x)%string = ("subquery_" ++ m_alias m ++ x)%string) by (intros x; unfold prefix; apply append_assoc). rewrite <- !PX. destruct (changes (Some g) m f); unfold andthen, ret in F1; cbn [fst] in F1; symmetry; congruence. }
      destruct (GR' r (or_introl eq_refl)) as (NC & P1 & P2). destruct (assoc r done) as [v|] eqn:A.
      - rewrite replace_done in T1; [|exact GS|eauto|exact P1|exact P2|intros n u X; eapply PV, DV; exact X]. subst t1. destruct (IH (fun n I => GR' n (or_intror I)) done t0 DV F) as (done' & D1 & D2 & D3). exists done'. split; [exact D1|]. split; [exact D2|]. intros n [X|[<-|I]]; apply D3; auto. left. now rewrite A.
      - rewrite replace_now in T1; [|exact GS|exact A|exact P1|exact P2|intros n u X; eapply PV, DV; exact X]. subst t1.
        assert (DV' : forall n v, assoc n ((r, ("subquery_" ++ m_alias m ++ "." ++ column (moved g m f))%string) :: done) = Some v -> val n v).
        { intros n v. cbn [assoc]. destruct (String.eqb n r) eqn:E; [|apply DV]. apply String.eqb_eq in E. subst n. intros X. injection X as <-. right. split; [exact NC|]. exists f. auto. }
        destruct (IH (fun n I => GR' n (or_intror I)) _ t0 DV' F) as (done' & D1 & D2 & D3). exists done'. split; [exact D1|]. split; [exact D2|]. intros n X. apply D3. cbn [assoc]. destruct (String.eqb n r) eqn:E; [left; discriminate|]. destruct X as [X|[<-|I]]; auto. rewrite String.eqb_refl in E. discriminate E. }
    destruct (MAIN _ GR [("cumulative_date", spine_ref)] t) as (done & D1 & D2 & D3).
    - intros n v. cbn [assoc]. destruct (String.eqb n "cumulative_date") eqn:E; [|discriminate]. apply String.eqb_eq in E. subst n. intros X. injection X as <-. left. auto.
    - exact H.
    - exists (map (part done) segs). split; [|exact D2]. clear D2 H RN RF SQ. assert (COV : forall n, In n (refs_of segs) -> exists v, assoc n done = Some v).
      { intros n I. destruct (assoc n done) as [v|] eqn:E; [eauto|]. exfalso. apply (D3 n); [|exact E]. cbn [assoc]. destruct (String.eqb n "cumulative_date") eqn:X; [left; discriminate|]. right. apply filter_In. split; [exact I|now rewrite X]. }
      clear D3 MAIN GR GS. induction segs as [|[u|n] segs IH]; [constructor| |]; constructor.
      + reflexivity.
      + apply IH. exact COV.
      + cbn [part where_part]. destruct (COV n) as (v & E); [now left|]. rewrite E. exact (D1 n v E).
      + apply IH. intros n' I. apply COV. now right.
  Qed.
  (** C72: the conditions of a metric in the second sub query are those of its cumulative_where, with every reference a column
      of the first; a metric without cumulative_where has none *)
  Theorem C72_where dims wh g qs dims' : one_timeframe fields ms dims g -> plain_plan fields ms dims wh = Ok (qs, dims') ->
    Forall2 (fun m q => (m_where m = None -> a_where (snd q) = None) /\
      (forall segs, m_where m = Some (sql_of segs) -> sql_of segs <> "" -> Forall good_seg segs -> plain (m_alias m) = true -> (forall f, In f fields -> plain (column (moved g m f)) = true) ->
         exists parts, Forall2 (where_part g m) segs parts /\ a_where (snd q) = Some (cat parts))) ms qs.
  Proof.
    intros OT H. unfold plain_plan, plan in H. destruct ms as [|first r] eqn:E; [injection H as <- <-; constructor|]. rewrite <- E in *.
    apply uinv in H. destruct H as (h & G & H). assert (h = Some g) by (apply (first_inv fields ms dims g); [exact OT|exact G]). subst h. clear G OT. clear E. revert qs dims' H. generalize dims.
    assert (X : forall todo dims qs dims', fst (sub_queries unit lookup nowrite ms (Some g) first todo dims wh tt) = Ok (qs, dims') -> Forall2 (fun m q => (m_where m = None -> a_where (snd q) = None) /\
      (forall segs, m_where m = Some (sql_of segs) -> sql_of segs <> "" -> Forall good_seg segs -> plain (m_alias m) = true -> (forall f, In f fields -> plain (column (moved g m f)) = true) ->
         exists parts, Forall2 (where_part g m) segs parts /\ a_where (snd q) = Some (cat parts))) todo qs); [|intros dims0 qs dims'; apply X].
    induction todo as [|m todo IH]; intros dims0 qs0 dims1 Q; [cbn in Q; injection Q as <- <-; constructor|]. cbn [sub_queries] in Q. apply uinv in Q. destruct Q as (s & S & Q). apply uinv in Q. destruct Q as (a & A & Q). apply uinv in Q. destruct Q as ([q d'] & Q1 & Q). injection Q as <- <-. constructor; [|exact (IH _ _ _ Q1)]. clear IH Q1 S. cbn [snd].
    unfold aggregated in A. apply uinv in A. destruct A as (d & _ & A). apply uinv in A. destruct A as (sp & _ & A). apply uinv in A. destruct A as (cw & CW & A). apply uinv in A. destruct A as (cs & _ & A). apply uinv in A. destruct A as (hs & _ & A). injection A as <-. cbn [fst a_where]. split.
    - intros W. rewrite W in CW. injection CW as <-. reflexivity.
    - intros segs W NE GS PA PC. rewrite W in CW. apply String.eqb_neq in NE. rewrite NE in CW. apply uinv in CW. destruct CW as (t & T & CW). injection CW as <-. destruct (C72_where_text g m segs t GS PA PC T) as (parts & P1 & P2). exists parts. split; [exact P1|now rewrite P2].
  Qed.
  (** ** What is not so *)
  (** C72: two timeframes of a date: the columns of both are the date of the spine, in the periods of the first *)
  Theorem C72_two_timeframes_refuted n f g r wh qs dims' n' f' : look fields n = Ok f -> date_of ms f -> c_group f = Some g -> In g ["week"; "month"; "quarter"; "year"] ->
    In n' r -> look fields n' = Ok f' -> date_of ms f' -> c_group f' <> Some g -> plain_plan fields ms (n :: r) wh = Ok (qs, dims') ->
    Forall (fun q => In (column f, FromSpine) (a_columns (snd q)) /\ In (column f', FromSpine) (a_columns (snd q))) qs.
  Proof.
    intros L D GF V I L' D' _ H. unfold plain_plan, plan in H. destruct ms as [|first r0] eqn:E; [injection H as <- <-; constructor|]. rewrite <- E in *. apply uinv in H. destruct H as (h & G & H). cbn [first_group] in G. apply uinv in G. destruct G as (f0 & F0 & G). assert (f0 = f) by (change (look fields n = Ok f0) in F0; congruence). subst f0. apply uinv in G. destruct G as (b & B & G). apply default_inv in B. destruct b; [|apply B in D; discriminate D]. injection G as <-. rewrite GF in H. clear E B F0.
    assert (V' : In g ["date"; "week"; "month"; "quarter"; "year"]) by (now right).
    assert (X : forall todo qs dims', fst (sub_queries unit lookup nowrite ms (Some g) first todo (n :: r) wh tt) = Ok (qs, dims') -> Forall (fun q => In (column f, FromSpine) (a_columns (snd q)) /\ In (column f', FromSpine) (a_columns (snd q))) qs); [|exact (X ms qs dims' H)].
    induction todo as [|m todo IH]; intros qs0 dims1 Q; [cbn in Q; injection Q as <- <-; constructor|]. cbn [sub_queries] in Q. apply uinv in Q. destruct Q as (s & S & Q). apply uinv in Q. destruct Q as (a & A & Q). destruct (one_described fields ms first g (n :: r) wh m s a V' S A) as [SD DE]. rewrite SD in Q. apply uinv in Q. destruct Q as ([q d'] & Q1 & Q). injection Q as <- <-. constructor; [|exact (IH _ _ Q1)]. cbn [snd]. pose proof (d_columns _ _ _ _ _ _ _ _ DE) as DC. cbn [snd] in DC.
    assert (Y : forall k fk, In k (n :: r) -> look fields k = Ok fk -> date_of ms fk -> In (column fk, FromSpine) (a_columns (fst a))).
    { intros k fk IK LK DK. inversion DC as [|? c0 ? cols C0 DR X1 X2]. right. clear - IK LK DK DR. induction DR as [|x c l cols (f1 & L1 & E1 & S1) DR IH]; [destruct IK|]. destruct IK as [->|IK]; [|right; now apply IH]. left. assert (f1 = fk) by congruence. subst f1. destruct c as [cn cs]. cbn [fst snd] in E1, S1. destruct S1 as [[_ ->]|[N _]]; [now rewrite E1|destruct (N DK)]. }
    split; [apply (Y n f)|apply (Y n' f')]; auto; [now left|now right].
  Qed.
  (** C72: a date in a timeframe that is no period (hour_of_day, day_of_week, raw ...): its column is the day of the spine, and a
      dimension is added for every metric *)
  Lemma odd_queries t first todo wh : ~ In t ["date"; "week"; "month"; "quarter"; "year"] -> forall dims qs dims', fst (sub_queries unit lookup nowrite ms (Some t) first todo dims wh tt) = Ok (qs, dims') ->
    dims' = dims ++ repeat (date_key first "date") (List.length todo) /\
    Forall (fun q => a_spine (snd q) = Days /\ forall n f, In n dims -> look fields n = Ok f -> date_of ms f -> In (column f, FromSpine) (a_columns (snd q))) qs.
  Proof.
    intros V. induction todo as [|m todo IH]; intros dims qs dims' Q; [cbn in Q; injection Q as <- <-; cbn; rewrite app_nil_r; split; [reflexivity|constructor]|]. cbn [sub_queries] in Q. apply uinv in Q. destruct Q as (s & S & Q). apply uinv in Q. destruct Q as (a & A & Q). apply uinv in Q. destruct Q as ([q d'] & Q1 & Q). injection Q as <- <-. clear S.
    unfold aggregated in A. apply uinv in A. destruct A as (d & _ & A). apply uinv in A. destruct A as (sp & SP & A). apply uinv in A. destruct A as (cw & _ & A). apply uinv in A. destruct A as (cs & CS & A). apply uinv in A. destruct A as (hs & _ & A). injection A as <-.
    unfold spine_by_time_frame in SP. replace (mem t valid) with false in SP by (symmetry; apply mem_false; exact V). cbn [negb] in SP. injection SP as <-. cbn [fst snd] in *. destruct (IH _ _ _ Q1) as [D F]. split.
    - rewrite D, <- app_assoc. reflexivity.
    - constructor.
      + cbn [snd a_spine a_columns]. split; [reflexivity|]. intros n f I L DF. apply each_inv in CS. inversion CS as [|? c0 ? cols C0 CR X1 X2]. right. assert (J : In n (dims ++ [date_key first "date"])) by (apply in_app_iff; now left). clear - CR J L DF. induction CR as [|x c l cols C1 CR IH]; [destruct J|]. destruct J as [->|J]; [|right; now apply IH]. left. apply uinv in C1. destruct C1 as (f1 & L1 & C1). apply uinv in C1. destruct C1 as (so & S1 & C1). injection C1 as <-. apply source_inv in S1. assert (f1 = f) by (change (look fields n = Ok f1) in L1; congruence). subst f1. destruct S1 as [[_ ->]|[N _]]; [reflexivity|destruct (N DF)].
      + eapply Forall_impl; [|exact F]. intros x [X1 X2]. split; [exact X1|]. intros n f I. apply X2. apply in_app_iff. now left.
  Qed.
  Theorem C72_other_timeframe_refuted n f t r wh qs dims' first rest : ms = first :: rest -> look fields n = Ok f -> date_of ms f -> c_group f = Some t -> ~ In t ["date"; "week"; "month"; "quarter"; "year"] ->
    plain_plan fields ms (n :: r) wh = Ok (qs, dims') ->
    dims' = (n :: r) ++ repeat (date_key first "date") (List.length ms) /\ Forall (fun q => a_spine (snd q) = Days /\ In (column f, FromSpine) (a_columns (snd q))) qs.
  Proof.
    intros E L D GF V H. unfold plain_plan, plan in H. rewrite E in H. rewrite <- E in H. apply uinv in H. destruct H as (h & G & H). cbn [first_group] in G. apply uinv in G. destruct G as (f0 & F0 & G). assert (f0 = f) by (change (look fields n = Ok f0) in F0; congruence). subst f0. apply uinv in G. destruct G as (b & B & G). apply default_inv in B. destruct b; [|apply B in D; discriminate D]. injection G as <-. rewrite GF in H.
    destruct (odd_queries t first ms wh V _ _ _ H) as [X Y]. split; [exact X|]. eapply Forall_impl; [|exact Y]. intros q [A B']. split; [exact A|]. apply (B' n f); auto. now left.
  Qed.
  (** C72: without a date among the dimensions, a condition on the date is applied nowhere *)
  Theorem C72_date_condition_lost_refuted dims wh qs dims' w n f : In w wh -> w_field w = Some n -> look fields n = Ok f -> date_of ms f ->
    (forall d fd, In d dims \/ (exists m, In m ms /\ d = m_measure m) -> look fields d = Ok fd -> ~ date_of ms fd) -> plain_plan fields ms dims wh = Ok (qs, dims') ->
    Forall (fun q => ~ In w (snd (fst q)) /\ a_having (snd q) = []) qs.
  Proof.
    intros I W L D ND H. unfold plain_plan, plan in H. destruct ms as [|first r0] eqn:E; [injection H as <- <-; constructor|]. rewrite <- E in *. apply uinv in H. destruct H as (h & G & H).
    assert (h = Some "date").
    { revert G. assert (ND' : forall d fd, In d dims -> look fields d = Ok fd -> ~ date_of ms fd) by (intros d fd J; apply ND; now left). clear - ND'. induction dims as [|d r IH]; intros G; [now injection G as <-|]. cbn [first_group] in G. apply uinv in G. destruct G as (f0 & F0 & G). apply uinv in G. destruct G as (b & B & G). apply default_inv in B. destruct b; [exfalso; apply (ND' d f0); [now left|exact F0|now apply B]|]. apply IH; [intros d' fd J; apply ND'; now right|exact G]. }
    subst h. assert (V : In "date" ["date"; "week"; "month"; "quarter"; "year"]) by (now left).
    assert (X : forall todo qs dims', (forall m, In m todo -> In m ms) -> fst (sub_queries unit lookup nowrite ms (Some "date") first todo dims wh tt) = Ok (qs, dims') -> Forall (fun q => ~ In w (snd (fst q)) /\ a_having (snd q) = []) qs); [|exact (X ms qs dims' (fun m J => J) H)].
    induction todo as [|m todo IH]; intros qs0 dims1 SUB Q; [cbn in Q; injection Q as <- <-; constructor|]. cbn [sub_queries] in Q. apply uinv in Q. destruct Q as (s & S & Q). apply uinv in Q. destruct Q as (a & A & Q). destruct (one_described fields ms first "date" dims wh m s a V S A) as [SD DE]. rewrite SD in Q. apply uinv in Q. destruct Q as ([q d'] & Q1 & Q). injection Q as <- <-. constructor; [|exact (IH _ _ (fun m' J => SUB m' (or_intror J)) Q1)]. cbn [fst snd]. clear IH Q1. split.
    - destruct (d_conditions _ _ _ _ _ _ _ _ DE) as (bs & DC & KE & _). cbn [fst snd] in KE. rewrite KE. clear - DC W L D. induction DC as [|w0 b wh bs (n0 & f0 & N0 & L0 & B0) DC IH]; [intros []|]. unfold split_by in *. cbn [combine filter snd]. destruct b; cbn [Bool.eqb]; [exact IH|]. intros [X|X]; [|exact (IH X)]. cbn [fst] in X. subst w0. assert (n0 = n) by congruence. subst n0. assert (f0 = f) by congruence. subst f0. apply B0 in D. discriminate D.
    - pose proof (d_columns _ _ _ _ _ _ _ _ DE) as CO. cbn [snd] in CO. unfold aggregated in A. apply uinv in A. destruct A as (d & _ & A). apply uinv in A. destruct A as (sp & SP & A). apply uinv in A. destruct A as (cw & _ & A). apply uinv in A. destruct A as (cs & CS & A). apply uinv in A. destruct A as (hs & _ & A). injection A as <-. cbn [fst a_having a_columns] in *. destruct (existsb (fun c => from_spine (snd c)) cs) eqn:EX; [|reflexivity]. exfalso. apply existsb_exists in EX. destruct EX as ([cn c] & J & FS). cbn [snd] in FS. destruct c; try discriminate FS.
      assert (Y : exists k fk, In k (m_measure m :: dims) /\ look fields k = Ok fk /\ date_of ms fk).
      { clear - CO J. induction CO as [|x c0 l cols (f1 & L1 & E1 & S1) CR IH]; [destruct J|]. destruct J as [->|J].
        - cbn [snd] in S1. exists x, f1. split; [now left|]. split; [exact L1|]. destruct S1 as [[D _]|[_ X]]; [exact D|destruct (c_measure f1); discriminate X].
        - destruct (IH J) as (k & fk & A & B). exists k, fk. split; [now right|exact B]. }
      destruct Y as (k & fk & IK & LK & DK). apply (ND k fk); auto. destruct IK as [<-|IK]; [right; exists m; split; [apply SUB; now left|reflexivity]|now left].
  Qed.
  (** C72: a group of conditions, or a condition in SQL, is refused with a KeyError or an earlier error *)
  Theorem C72_other_conditions_refuted dims wh w q : ms <> [] -> In w wh -> w_field w = None -> plain_plan fields ms dims wh <> Ok q.
  Proof.
    intros NE I W H. unfold plain_plan, plan in H. destruct ms as [|m r] eqn:E; [now apply NE|]. rewrite <- E in *. apply uinv in H. destruct H as (g & _ & H). rewrite E in H at 2. cbn [sub_queries] in H. apply uinv in H. destruct H as (s & S & _). unfold subquery in S. apply uinv in S. destruct S as (fs & _ & S). apply uinv in S. destruct S as (d & _ & S). apply uinv in S. destruct S as (ws & _ & S). apply uinv in S. destruct S as (kept & K & _). apply each_inv in K. clear - K I W. induction K as [|x l wh ks A F IH]; [destruct I|]. destruct I as [->|I]; [|now apply IH]. apply uinv in A. destruct A as (f & A & _). unfold field_of in A. rewrite W in A. discriminate A.
  Qed.
  (** C72: a metric whose view has no default date cannot be asked for, with or without dimensions *)
  Theorem C72_no_default_date dims wh q m : In m ms -> m_date m = None -> plain_plan fields ms dims wh <> Ok q.
  Proof.
    intros I D H. assert (DE : forall f b, fst (is_default unit ms f tt) <> Ok b).
    { intros f b B. unfold is_default in B. destruct (date_ids ms) as [l|e] eqn:E; [|discriminate B]. unfold date_ids in E. apply mapM_ok in E. clear - E I D. induction E as [|x y l0 l1 A F IH]; [destruct I|]. destruct I as [->|I]; [rewrite D in A; discriminate A|now apply IH]. }
    unfold plain_plan, plan in H. destruct ms as [|m0 r] eqn:E; [destruct I|]. rewrite <- E in *. apply uinv in H. destruct H as (g & _ & H). rewrite E in H at 2. cbn [sub_queries] in H. apply uinv in H. destruct H as (s & S & H). apply uinv in H. destruct H as (a & A & _). unfold aggregated in A. apply uinv in A. destruct A as (d & _ & A). apply uinv in A. destruct A as (sp & _ & A). apply uinv in A. destruct A as (cw & _ & A). apply uinv in A. destruct A as (cs & CS & _). cbn [each] in CS. apply uinv in CS. destruct CS as (b & C & _). apply uinv in C. destruct C as (f & _ & C). apply uinv in C. destruct C as (so & SO & _). unfold source_of in SO. apply uinv in SO. destruct SO as (b' & B & _). exact (DE f b' B).
  Qed.
  (** C72: every view whose columns the first sub query selects is joined, when the default date of the metric and the fields of
      its cumulative_where are of views the query mentions otherwise *)
  Lemma joined_in m dims wh vs : joined fields m dims wh = Ok vs -> (forall n f, In n dims -> look fields n = Ok f -> c_measure f = false -> In (c_view f) vs) /\ (forall f, look fields (m_measure m) = Ok f -> In (c_view f) vs).
  Proof.
    unfold joined. intros H. apply bind_ok in H. destruct H as [fs [F H]]. apply bind_ok in H. destruct H as [ws [W H]]. apply bind_ok in H. destruct H as [mf [L H]]. injection H as <-. apply mapM_ok in F. split.
    - intros n f I LN NM. apply dedup_In. apply in_map. apply in_app_iff. left. apply filter_In. rewrite NM. split; [|reflexivity]. apply in_app_iff. left. clear - F I LN. induction F as [|x y l l' A F IH]; [destruct I|]. destruct I as [->|I]; [left; change (look fields n = Ok y) in A; congruence|right; now apply IH].
    - intros f LF. change (look fields (m_measure m) = Ok mf) in L. assert (mf = f) by congruence. subst mf. apply dedup_In. apply in_map. apply in_app_iff. right. now left.
  Qed.
  Theorem C72_joined g m dims wh s vs d : clean fields -> In g ["date"; "week"; "month"; "quarter"; "year"] -> fst (subquery unit lookup ms (Some g) m dims wh tt) = Ok s -> joined fields m dims wh = Ok vs ->
    (forall n f, In n dims -> look fields n = Ok f -> c_measure f = false) -> look fields (date_key m g) = Ok d -> In (c_view d) vs ->
    (forall w r f, m_where m = Some w -> In r (where_refs w) -> look fields r = Ok f -> In (c_view f) vs) ->
    Forall (fun n => exists f, look fields n = Ok f /\ In (c_view f) vs) (fst s).
  Proof.
    intros C G S J NM D DV WV. destruct (joined_in _ _ _ _ J) as [JD _]. unfold subquery in S. apply uinv in S. destruct S as (fs & FS & S). apply uinv in S. destruct S as (d0 & D0 & S). apply uinv in S. destruct S as (ws & WS & S). apply uinv in S. destruct S as (kept & K & S). injection S as <-. apply each_inv in FS. apply date_inv in D0. cbn [show] in D0. assert (d0 = d) by congruence. subst d0. cbn [fst].
    assert (FF : Forall (fun f => (exists n, look fields n = Ok f) /\ In (c_view f) vs) (((if existsb (same_field d) fs then fs else fs ++ [d])) ++ ws)).
    { apply Forall_forall. intros f I. apply in_app_iff in I.
      assert (FI : In f fs -> (exists n, look fields n = Ok f) /\ In (c_view f) vs).
      { intros J'. assert (X : exists n, In n dims /\ look fields n = Ok f) by (clear - FS J'; induction FS as [|x y l l' A F IH]; [destruct J'|]; destruct J' as [->|J']; [exists x; split; [now left|exact A]|destruct (IH J') as (n & B & L); exists n; split; [now right|exact L]]). destruct X as (n & IN & L). split; [now exists n|]. apply (JD n f IN L). exact (NM n f IN L). }
      destruct I as [I|I].
      - destruct (existsb (same_field d) fs); [now apply FI|]. apply in_app_iff in I. destruct I as [I|[<-|[]]]; [now apply FI|]. split; [now exists (date_key m g)|exact DV].
      - destruct (m_where m) as [w|] eqn:W; [|injection WS as <-; destruct I]. destruct (String.eqb w ""); [injection WS as <-; destruct I|]. apply each_inv in WS.
        assert (X : exists r, In r (where_refs w) /\ fst (where_field unit lookup (Some g) m r tt) = Ok f) by (clear - WS I; induction WS as [|x y l l' A F IH]; [destruct I|]; destruct I as [->|I]; [exists x; split; [now left|exact A]|destruct (IH I) as (n & B & L); exists n; split; [now right|exact L]]).
        destruct X as (r & IR & WF). pose proof WF as WF0. unfold where_field in WF. apply uinv in WF. destruct WF as (f0 & L0 & WF). change (look fields r = Ok f0) in L0. pose proof (WV w r f0 eq_refl IR L0) as V0. destruct (changes (Some g) m f0) eqn:CH; [|injection WF as <-; split; [now exists r|exact V0]].
        destruct (moved_column g m r f0 f C G L0 WF0) as [_ (s0 & LS)]. split; [now exists s0|]. change (look fields (c_view f0 ++ "." ++ c_name f0 ++ "_" ++ g)%string = Ok f) in WF. destruct (look_matches _ _ _ L0) as (I0 & _). destruct (C f0 I0) as (DV0 & DL0 & _). destruct (look_matches _ _ _ WF) as (_ & MM & _). unfold changes in CH. apply andb_prop in CH. destruct CH as [CH _]. apply andb_prop in CH. destruct CH as [IG _]. unfold is_group in IG. unfold label in DL0. destruct (c_group f0) as [t|]; [|discriminate IG]. rewrite has_char_app in DL0. apply orb_false_iff in DL0. destruct DL0 as [DN _].
        assert (DG : has_char dot (c_name f0 ++ "_" ++ g)%string = false) by (rewrite has_char_app, DN; destruct G as [<-|[<-|[<-|[<-|[<-|[]]]]]]; reflexivity).
        unfold matches in MM. change (c_view f0 ++ "." ++ c_name f0 ++ "_" ++ g)%string with (c_view f0 ++ String dot (c_name f0 ++ "_" ++ g))%string in MM. rewrite field_name_parts_qualified in MM by assumption. apply andb_prop in MM. destruct MM as [M1 _]. apply String.eqb_eq in M1. now rewrite M1. }
    apply Forall_forall. intros n I. apply in_map_iff in I. destruct I as (f & <- & I). rewrite Forall_forall in FF. destruct (FF f I) as [(s0 & L) V]. exists f. split; [exact (look_id fields s0 f C L)|exact V].
  Qed.
End Scope.

(** ** A project: orders and customers, each with its default date *)
Definition gr (v n : string) (ts : list string) : list cfield := map (fun t => CField v n (Some t) false) ts.
Definition shop : list cfield :=
  gr "orders" "order" ["date"; "week"; "month"; "hour_of_day"] ++ [CField "orders" "channel" None false; CField "orders" "revenue" None true] ++
  gr "customers" "joined" ["date"; "week"; "month"] ++ gr "customers" "cancelled" ["date"; "week"; "month"] ++ [CField "customers" "region" None false; CField "customers" "signups" None true].
Definition revenue : cmet := CMet "orders_total_revenue" true "orders" (Some "order") "orders.revenue" None.
Definition sql : list seg := [Ref "customers.cancelled_date"; Text " > "; Ref "cumulative_date"; Text " or "; Ref "customers.region"; Text " is null"].
Definition active : cmet := CMet "orders_active_revenue" true "orders" (Some "order") "orders.revenue" (Some (sql_of sql)).
Definition signups : cmet := CMet "customers_total_signups" true "customers" (Some "joined") "customers.signups" None.
Lemma shop_clean : clean shop.
Proof. intros f I. cbn in I. repeat (destruct I as [<-|I]; [repeat split|]). destruct I. Qed.
Lemma shop_dates f : date_of [revenue; active] f <-> (c_view f ++ "." ++ c_name f)%string = "orders.order".
Proof. split; [intros (m & d & [<-|[<-|[]]] & D & X); injection D as <-; exact X|]. intros X. exists revenue, "order". split; [now left|]. split; [reflexivity|exact X]. Qed.
Example C72_example_one_timeframe : one_timeframe shop [revenue; active] ["orders.order_week"; "customers.region"] "week".
Proof.
  split; [cbn; tauto|]. split.
  - intros d f [<-|[<-|[]]] L D; vm_compute in L; injection L as <-; [reflexivity|]. apply shop_dates in D. discriminate D.
  - right. exists "orders.order_week", (CField "orders" "order" (Some "week") false). split; [now left|]. split; [reflexivity|]. now apply shop_dates.
Qed.
Example C72_example_dates m d : In m [revenue; active] -> look shop (date_key m "week") = Ok d -> date_of [revenue; active] d /\ c_group d = Some "week".
Proof. intros [<-|[<-|[]]] L; vm_compute in L; injection L as <-; split; try reflexivity; now apply shop_dates. Qed.
Definition asked_conditions : list cond := [Cond (Some "orders.order_date") "after 2021"; Cond (Some "customers.region") "is West"].
(** the two sub queries of the two metrics *)
Example C72_example_plan : plain_plan shop [revenue; active] ["orders.order_week"; "customers.region"] asked_conditions =
  Ok ([ (["orders.order_week"; "customers.region"], [Cond (Some "customers.region") "is West"],
         Agg (PeriodsOf (CField "orders" "order" (Some "week") false)) "orders_order_week" None
             [("orders_revenue", Aggregate "orders_revenue"); ("orders_order_week", FromSpine); ("customers_region", FromColumn "customers_region")]
             [FromColumn "customers_region"; FromSpine] [(Some "date", Cond (Some "orders.order_date") "after 2021")]);
        (["orders.order_week"; "customers.region"; "customers.cancelled_week"; "customers.region"], [Cond (Some "customers.region") "is West"],
         Agg (PeriodsOf (CField "orders" "order" (Some "week") false)) "orders_order_week"
             (Some "subquery_orders_active_revenue.customers_cancelled_week > date_spine.date or subquery_orders_active_revenue.customers_region is null")
             [("orders_revenue", Aggregate "orders_revenue"); ("orders_order_week", FromSpine); ("customers_region", FromColumn "customers_region")]
             [FromColumn "customers_region"; FromSpine] [(Some "date", Cond (Some "orders.order_date") "after 2021")]) ],
      ["orders.order_week"; "customers.region"]).
Proof. vm_compute. reflexivity. Qed.
Example C72_example_where : Forall good_seg sql /\ (forall f, In f shop -> plain (column (moved "week" active f)) = true).
Proof. split; [repeat constructor; discriminate|]. intros f I. cbn in I. repeat (destruct I as [<-|I]; [reflexivity|]). destruct I. Qed.
(** queries by day leave the project as it was, also those with cumulative_where *)
Example C72_example_steady : steady_query shop [revenue; active] ["orders.order_date"] /\ steady_query shop [revenue] ["orders.order_week"; "customers.region"].
Proof.
  split; intros g m G I w r f W J L; vm_compute in G; injection G as <-.
  - destruct I as [<-|[<-|[]]]; [discriminate W|]. injection W as <-. vm_compute in J. destruct J as [<-|[<-|[]]]; vm_compute in L; injection L as <-; reflexivity.
  - destruct I as [<-|[]]. discriminate W.
Qed.
Definition refunds : cmet := CMet "orders_total_refunds" true "orders" (Some "order") "orders.revenue" None.
Example C72_example_other_timeframe : exists qs, plain_plan shop [revenue; refunds] ["orders.order_hour_of_day"] [] = Ok (qs, ["orders.order_hour_of_day"; "orders.order_date"; "orders.order_date"]) /\ List.length qs = 2.
Proof. eexists. split; vm_compute; reflexivity. Qed.
(** C72: a query by month with such a condition changes the project: afterwards the name of the field denotes another one *)
Theorem C72_leaves_project_refuted : exists fields ms dims qs dims', clean fields /\
  (let x := run_plan ms dims [] (fresh fields) in
   fst x = Ok (qs, dims') /\ look fields "customers.cancelled_date" = Ok (CField "customers" "cancelled" (Some "date") false) /\
   fst (kept_field "customers.cancelled_date" (snd x)) = Ok (CField "customers" "cancelled" (Some "month") false)).
Proof. exists shop, [active], ["orders.order_month"]. eexists _, _. split; [exact shop_clean|]. vm_compute. repeat split. Qed.
(** C72: so the same query can give different sub queries the second time *)
Theorem C72_repeat_refuted : exists fields ms dims, clean fields /\
  fst (run_plan ms dims [] (fresh fields)) <> fst (run_plan ms dims [] (snd (run_plan [active] ["orders.order_month"] [] (fresh fields)))) /\
  exists q, fst (run_plan ms dims [] (fresh fields)) = Ok q.
Proof. exists shop, [revenue], ["orders.order_week"; "customers.cancelled_date"]. split; [exact shop_clean|]. split; [vm_compute; discriminate|]. eexists. vm_compute. reflexivity. Qed.
(** C72: and a dimension of the query that is also in cumulative_where is given under another name, from the sub query of another
    timeframe *)
Theorem C72_dimension_lost_refuted : exists fields ms dims s a, clean fields /\ fst (run_plan ms dims [] (fresh fields)) = Ok ([(s, [], a)], dims) /\ In "customers.cancelled_date" dims /\
  ~ In "customers_cancelled_date" (map fst (a_columns a)) /\ In "customers_cancelled_month" (map fst (a_columns a)).
Proof. exists shop, [active], ["orders.order_month"; "customers.cancelled_date"]. eexists _, _. split; [exact shop_clean|]. split; [vm_compute; reflexivity|]. vm_compute. split; [tauto|]. split; [intros [X|[X|[X|[]]]]; discriminate X|tauto]. Qed.
(** C72: with two metrics whose default dates are asked for in two timeframes, the date of the second is not a column of its
    first sub query *)
Theorem C72_date_missing_refuted : exists fields ms dims qs dims' q, clean fields /\ plain_plan fields ms dims [] = Ok (qs, dims') /\ In q qs /\ ~ provides fields (fst (fst q)) (a_date (snd q)).
Proof.
  exists shop, [revenue; signups], ["orders.order_month"; "customers.joined_week"]. eexists _, _, _. split; [exact shop_clean|]. split; [vm_compute; reflexivity|]. split; [right; left; reflexivity|]. intros (s & f & I & L & E). cbn [fst snd a_date] in *. destruct I as [<-|[<-|[]]]; vm_compute in L; injection L as <-; vm_compute in E; discriminate E.
Qed.
(** C72: a view that only cumulative_where mentions is not joined, although its column is selected *)
Theorem C72_view_missing_refuted : exists fields ms m dims s vs, clean fields /\ In m ms /\ fst (subquery unit (plain_field fields) ms (Some "week") m dims [] tt) = Ok s /\ joined fields m dims [] = Ok vs /\
  In "customers.cancelled_week" (fst s) /\ vs = ["orders"].
Proof. exists shop, [active], active, ["orders.order_week"]. eexists _, _. split; [exact shop_clean|]. split; [now left|]. split; [vm_compute; reflexivity|]. split; [vm_compute; reflexivity|]. split; [vm_compute; tauto|reflexivity]. Qed.
Example C72_example_joined : joined shop active ["orders.order_week"; "customers.region"] [] = Ok ["orders"; "customers"].
Proof. vm_compute. reflexivity. Qed.
(** the hypotheses of the general refutations *)
Example C72_example_two_timeframes : exists qs, plain_plan shop [revenue] ["orders.order_month"; "orders.order_week"] [] = Ok (qs, ["orders.order_month"; "orders.order_week"]) /\ qs <> [].
Proof. eexists. split; [vm_compute; reflexivity|discriminate]. Qed.
Example C72_example_condition_lost : exists qs, plain_plan shop [revenue] ["orders.channel"] asked_conditions = Ok (qs, ["orders.channel"]) /\ qs <> [] /\
  look shop "orders.order_date" = Ok (CField "orders" "order" (Some "date") false) /\ date_of [revenue] (CField "orders" "order" (Some "date") false).
Proof. eexists. split; [vm_compute; reflexivity|]. split; [discriminate|]. split; [reflexivity|]. exists revenue, "order". split; [now left|]. split; reflexivity. Qed.
Print Assumptions C72_same_as_fresh.
Print Assumptions C72_any_history.
Print Assumptions C72_write_stays_refuted.
Print Assumptions C72_sub_queries.
Print Assumptions C72_in_scope.
Print Assumptions C72_where_text.
Print Assumptions C72_where.
Print Assumptions C72_two_timeframes_refuted.
Print Assumptions C72_other_timeframe_refuted.
Print Assumptions C72_date_condition_lost_refuted.
Print Assumptions C72_other_conditions_refuted.
Print Assumptions C72_no_default_date.
Print Assumptions C72_leaves_project_refuted.
Print Assumptions C72_repeat_refuted.
Print Assumptions C72_dimension_lost_refuted.
Print Assumptions C72_date_missing_refuted.
Print Assumptions C72_joined.
Print Assumptions C72_view_missing_refuted.
