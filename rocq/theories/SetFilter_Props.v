(** Specification and property theorems: C74, funnel conditions; C75, conditions on groups. *)
From Coq Require Import List String Ascii ZArith Bool Lia.
From Verif Require Import PyBase PyStr Core_Model Duration_Model Funnel_Model Funnel_Props SetFilter_Model.
Import ListNotations.
Local Open Scope string_scope.
Local Open Scope list_scope.

Section Filters.
  Variable row : Type.
  Notation leaf := (leaf row). Notation cond := (cond row). Notation request := (request row). Notation funnel := (funnel row).
  Variable view_of : string -> string.
  Variable required : string -> list string.
  Variable is_measure : string -> bool.
  Variable default_date : string -> option string.
  Variable primary_key : string -> option string.
  Variable customers : list string.
  Variable graphs : string -> list string.
  Variable value : string -> row -> val.
  Variable instant : string -> row -> option Z.
  Variable metric : string -> list string -> list row -> val.
  Variable joined : list string -> list row.
  Variable allowed : list string -> row -> bool.
  Variable filter_views : list string -> list string.
  Variable diff : Z -> Z -> Z.
  Notation run := (run row view_of required is_measure default_date primary_key customers graphs value instant metric joined allowed filter_views diff).
  Notation all_views := (all_views required filter_views).
  Notation views := (views required).
  Notation lookup := (lookup row).
  Notation funnel_base := (funnel_base row view_of required default_date primary_key customers graphs value instant joined allowed filter_views).

  (** ** What a condition asks of a row *)
  (** the rows of a group: those that the user may see, of the join of the view of the group and the view of the metric *)
  Definition group_rows (g m v : string) : list row :=
    filter (fun x => match value g x with Some w => String.eqb w v | None => false end) (filter (allowed (views [g; m])) (joined (all_views [g; m]))).
  Definition group_meets (g m : string) (t : val -> bool) (v : string) : Prop :=
    group_rows g m v <> [] /\ t (metric m (all_views [g; m]) (group_rows g m v)) = true.
  (** the person has gone through the first n steps *)
  Definition reached (w : Z) (ss : list (fstep row)) (base : list (event row)) (n : nat) (p : string) : Prop :=
    1 <= n <= List.length ss /\ exists es, chain base diff w (firstn n ss) es /\ forall e, In e es -> ev_person e = Some p.
  (** a combination of conditions, none of its groups empty *)
  Fixpoint full (c : cond) : bool := match c with CLeaf l => negb (is_funnel row l) | CGroup _ l => negb (match l with [] => true | _ => false end) && forallb full l end.
  Fixpoint tree (c : cond) (x : row) : bool :=
    match c with
    | CLeaf l => match l_expr l with Compare t => t (value (l_field l) x) | _ => false end
    | CGroup any l => if any then existsb (fun c => tree c x) l else forallb (fun c => tree c x) l
    end.
  Definition asks (link : string) (through : nat -> string -> Prop) (c : cond) (x : row) : Prop :=
    match c with
    | CGroup _ _ => tree c x = true
    | CLeaf l =>
        match l_expr l, l_group l with
        | Compare t, None => t (value (l_field l) x) = true
        | Compare t, Some g => exists v, value g x = Some v /\ group_meets g (l_field l) t v
        | Converted a b, _ => exists p, value link x = Some p /\ through a p /\ through b p
        | DroppedOff a b, _ => exists p, value link x = Some p /\ through a p /\ ~ through b p
        end
    end.
  Definition on_group (c : cond) : Prop := match c with CLeaf l => l_group l <> None | CGroup _ _ => False end.
  Definition plain_tree (c : cond) : Prop := match c with CLeaf _ => True | CGroup _ _ => full c = true end.

  (** ** Lemmas *)
  Lemma cond_ind' (P : cond -> Prop) : (forall l, P (CLeaf l)) -> (forall any l, Forall P l -> P (CGroup any l)) -> forall c, P c.
  Proof.
    intros A B. fix IH 1. intros [l|any l]; [apply A|]. apply B. induction l as [|c l IHl]; constructor; [apply IH|exact IHl].
  Qed.
  Lemma criterion_tree c : full c = true -> exists f, criterion row value c = Some f /\ forall x, f x = tree c x.
  Proof.
    induction c as [l|any l IH] using cond_ind'; cbn [full criterion tree]; intros F.
    - unfold is_funnel in F. destruct (l_expr l); try discriminate F. eexists. split; [reflexivity|reflexivity].
    - apply andb_true_iff in F. destruct F as [N F]. destruct l as [|c l]; [discriminate N|]. clear N.
      revert c IH F. induction l as [|c' l IHl]; intros c IH F.
      + cbn [forallb fold_right] in *. apply Forall_inv in IH. apply andb_true_iff in F. destruct F as [F _]. destruct (IH F) as (f & E & H). rewrite E. exists f. split; [reflexivity|]. intros x. rewrite H. cbn [existsb forallb]. destruct any; [now rewrite orb_false_r|now rewrite andb_true_r].
      + cbn [forallb] in F. apply andb_true_iff in F. destruct F as [Fc F]. pose proof (Forall_inv IH) as Ic. apply Forall_inv_tail in IH. destruct (IHl c' IH F) as (g & Eg & Hg). destruct (Ic Fc) as (f & Ef & Hf).
        cbn [fold_right] in Eg |- *. rewrite Eg, Ef. cbn [both]. eexists. split; [reflexivity|]. intros x. cbv beta. rewrite Hf, Hg. destruct any; reflexivity.
  Qed.
  Lemma meets_tree c x : full c = true -> meets row value c x = tree c x.
  Proof. intros F. destruct (criterion_tree c F) as (f & E & H). unfold meets. rewrite E. apply H. Qed.
  Lemma isin_In x l : isin x l = true <-> exists v, x = Some v /\ In (Some v) l.
  Proof.
    unfold isin. rewrite existsb_exists. split.
    - intros (y & I & E). destruct x as [v|], y as [w|]; try discriminate E. apply String.eqb_eq in E. subst w. eauto.
    - intros (v & -> & I). exists (Some v). split; [exact I|]. cbn. apply String.eqb_refl.
  Qed.
  Lemma isnotin_some v l : isnotin (Some v) l = true <-> ~ In (Some v) l /\ ~ In None l.
  Proof.
    unfold isnotin. destruct l as [|a l]; [cbn; tauto|]. remember (a :: l) as m. clear Heqm a l.
    rewrite andb_true_iff, negb_true_iff, forallb_forall. split.
    - intros [A B]. split.
      + intros I. assert (existsb (null_eq (Some v)) m = true) by (apply existsb_exists; exists (Some v); split; [exact I|apply String.eqb_refl]). congruence.
      + intros I. apply B in I. discriminate I.
    - intros [A B]. split.
      + destruct (existsb (null_eq (Some v)) m) eqn:E; [|reflexivity]. apply existsb_exists in E. destruct E as ([w|] & I & E); [|discriminate E]. cbn in E. apply String.eqb_eq in E. subst w. tauto.
      + intros [w|] I; [reflexivity|tauto].
  Qed.
  Lemma veqb_some x v : veqb x (Some v) = match x with Some w => String.eqb w v | None => false end.
  Proof. destruct x; reflexivity. Qed.
  Lemma group_cte_In g (l : leaf) t ks v : l_expr l = Compare t -> group_cte row required value metric joined allowed filter_views g l = Ok ks ->
    (In (Some v) ks <-> group_meets g (l_field l) t v).
  Proof.
    intros E H. unfold group_cte in H. rewrite E in H. injection H as <-. rewrite filter_In, in_map_iff. unfold group_meets.
    set (rs := filter (allowed (views [g; l_field l])) (joined (all_views [g; l_field l]))).
    assert (X : filter (fun r => veqb (value g r) (Some v)) rs = group_rows g (l_field l) v).
    { unfold group_rows. fold rs. apply filter_ext. intros a. apply veqb_some. }
    rewrite X. split.
    - intros [(x & Ex & Ix) T]. split; [|exact T]. intros N. assert (I : In x (group_rows g (l_field l) v)). { unfold group_rows. fold rs. apply filter_In. split; [exact Ix|]. rewrite Ex. apply String.eqb_refl. } rewrite N in I. destruct I.
    - intros [N T]. split; [|exact T]. destruct (group_rows g (l_field l) v) as [|x r] eqn:G; [congruence|]. assert (I : In x (group_rows g (l_field l) v)) by (rewrite G; now left).
      unfold group_rows in I. fold rs in I. apply filter_In in I. destruct I as [Ix Ex]. exists x. split; [|exact Ix]. destruct (value g x) as [w|]; [|discriminate Ex]. apply String.eqb_eq in Ex. now subst w.
  Qed.
  Lemma step_column_In ss w base qs n la v : step_queries diff w ss base = Ok qs -> (forall s, In s (tl ss) -> plain s) -> step_column row qs n = Some la ->
    (In (Some v) la <-> reached w ss base n v).
  Proof.
    intros S P C. destruct n as [|i]; [discriminate C|]. cbn [step_column] in C. destruct (nth_error qs i) as [q|] eqn:N; [|discriminate C]. injection C as <-.
    pose proof (C34_persons base diff w ss qs i q v S P N) as H. destruct (C34_steps base diff w ss qs S P) as [L _].
    assert (i < List.length qs) by (apply nth_error_Some; congruence).
    unfold reached. rewrite <- H, (persons_In q v), in_map_iff. split.
    - intros (s & E & I). split; [lia|]. exists s. auto.
    - intros [_ (s & I & E)]. exists s. auto.
  Qed.
  Lemma null_person ss w base qs n la : step_queries diff w ss base = Ok qs -> step_column row qs n = Some la -> In None la -> n = 1.
  Proof.
    intros S C I. destruct n as [|i]; [discriminate C|]. cbn [step_column] in C. destruct (nth_error qs i) as [q|] eqn:N; [|discriminate C]. injection C as <-.
    destruct i as [|i]; [reflexivity|]. exfalso. destruct ss as [|s ss]; [discriminate S|]. cbn [step_queries] in S. injection S as <-. cbn [nth_error] in N.
    revert N. generalize (step_1 s base). clear s. revert i. induction ss as [|s ss IH]; intros i prev N; [destruct i; discriminate N|].
    cbn [later_steps] in N. destruct i as [|i]; cbn [nth_error] in N; [|exact (IH i _ N)]. injection N as <-.
    apply in_map_iff in I. destruct I as (r & E & I). unfold step_n in I. apply in_flat_map in I. destruct I as (e & _ & I). apply in_flat_map in I. destruct I as (p & _ & I).
    destruct (Funnel_Model.null_eq (ev_person e) (ev_person (sr_event p))) eqn:Q; cbn [andb] in I; [|destruct I]. destruct (null_lt _ _ && _); [|destruct I]. destruct I as [<-|[]]. cbn [sr_event] in E. rewrite E in Q. discriminate Q.
  Qed.
  Lemma reached_first ss w base n p : reached w ss base n p -> reached w ss base 1 p.
  Proof.
    intros [L (es & C & P)]. split; [lia|]. revert es C P. induction n as [|n IH]; intros es C P; [lia|]. destruct n as [|n]; [eauto|].
    apply (IH ltac:(lia) (firstn (S n) es)); [exact (chain_prefix base diff w ss es n C)|]. intros e I. apply P. rewrite <- (firstn_skipn (S n) es). apply in_or_app. now left.
  Qed.
  Lemma reached_base ss w base n p : reached w ss base n p -> In (Some p) (map ev_person base).
  Proof.
    intros [L (es & (LE & B & _) & P)]. assert (List.length es = n) as LN by (rewrite LE, firstn_length; lia). destruct es as [|e es]; [cbn in LN; lia|].
    apply in_map_iff. exists e. split; [apply P; now left|apply B; now left].
  Qed.
  (** the people of a funnel condition *)
  Lemma funnel_cte_In ss w base qs e ks v : step_queries diff w ss base = Ok qs -> (forall s, In s (tl ss) -> plain s) -> funnel_cte row e base qs = Some ks ->
    (In (Some v) ks <-> match e with Compare _ => False | Converted a b => reached w ss base a v /\ reached w ss base b v | DroppedOff a b => reached w ss base a v /\ ~ reached w ss base b v end).
  Proof.
    intros S P C. destruct e as [t|a b|a b]; cbn [funnel_cte] in C; [discriminate C| |];
      destruct (step_column row qs a) as [la|] eqn:A; try discriminate C; destruct (step_column row qs b) as [lb|] eqn:B; try discriminate C; injection C as <-;
      rewrite filter_In, andb_true_iff, isin_In; pose proof (step_column_In ss w base qs a la v S P A) as HA; pose proof (step_column_In ss w base qs b lb v S P B) as HB.
    - rewrite isin_In, <- HA, <- HB. split.
      + intros (_ & (x & E & I) & (y & F & J)). injection E as <-. injection F as <-. auto.
      + intros [I J]. split; [|split; eauto]. apply (reached_base ss w base a). now apply HA.
    - rewrite isnotin_some, <- HA, <- HB. split.
      + intros (_ & (x & E & I) & (N & _)). injection E as <-. auto.
      + intros [I N]. split; [apply (reached_base ss w base a); now apply HA|]. split; [eauto|]. split; [exact N|]. intros J. pose proof (null_person ss w base qs b lb S B J) as ->. apply N, HB. apply (reached_first ss w base a). now apply HA.
  Qed.

  (** ** The rows of a query *)
  Definition through_of (fn : funnel) (base : list (event row)) : nat -> string -> Prop := reached (fn_window fn) (fn_steps fn) base.
  Lemma run_ok r o : run r = Ok o ->
    exists fn gs,
      match funnel_filters row (r_where r) with
      | [] => fn = None
      | [l] => exists f lk link base qs, l_funnel l = Some f /\ funnel_base r f = Ok (lk, link, base) /\ step_queries diff (fn_window f) (fn_steps f) base = Ok qs /\ fn = Some (lk, link, base, funnel_cte row (l_expr l) base qs)
      | _ => False
      end /\
      (forall c, In c (r_where r) -> row_filter row c = true -> unknown row c = false) /\
      Forall2 (fun l gk => l_group l = Some (fst gk) /\ group_cte row required value metric joined allowed filter_views (fst gk) l = Ok (snd gk)) (group_filters row (r_where r) ++ group_filters row (r_having r)) gs /\
      o_views row o = all_views (match fn with Some (lk', _, _, _) => lk' | None => lookup r end) /\
      o_rows row o = filter (fun x => allowed (views (lookup r)) x && forallb (fun c => meets row value c x) (filter (row_filter row) (r_where r))
          && forallb (fun gk => isin (value (fst gk) x) (snd gk)) gs && match fn with Some (_, link, _, Some ks) => isin (value link x) ks | _ => true end) (joined (o_views row o)) /\
      o_missing row o = flat_map (fun gk => missing required (o_views row o) (fst gk)) gs ++
         match fn with Some (_, link, _, ks) => missing required (o_views row o) link ++ match ks with None => ["step"] | Some _ => [] end | None => [] end.
  Proof.
    unfold SetFilter_Model.run. intros H. apply bind_ok in H. destruct H as (u1 & _ & H). apply bind_ok in H. destruct H as (u2 & _ & H). clear u1 u2. destruct (existsb (empty_group row) (r_where r ++ r_having r)); [discriminate H|].
    set (F := funnel_filters row (r_where r)) in *. set (G := group_filters row (r_where r) ++ group_filters row (r_having r)) in *.
    assert (Z : exists fn, match F with [] => fn = None | [l] => exists f lk link base qs, l_funnel l = Some f /\ funnel_base r f = Ok (lk, link, base) /\ step_queries diff (fn_window f) (fn_steps f) base = Ok qs /\ fn = Some (lk, link, base, funnel_cte row (l_expr l) base qs) | _ => False end /\
      (let lk' := match fn with Some (lk', _, _, _) => lk' | None => lookup r end in
        let vs := all_views lk' in
        if existsb (unknown row) (filter (row_filter row) (r_where r)) then Err QueryError else
        match G with
        | _ :: _ :: _ => Err TypeError
        | _ =>
            gs <- mapM (fun l => match l_group l with Some g => ks <- group_cte row required value metric joined allowed filter_views g l ;; Ok (g, ks) | None => Err KeyError end) G ;;
            Ok (Result row vs (filter (fun x => allowed (views (lookup r)) x && forallb (fun c => meets row value c x) (filter (row_filter row) (r_where r)) && forallb (fun gk => isin (value (fst gk) x) (snd gk)) gs && match fn with Some (_, link, _, Some ks) => isin (value link x) ks | _ => true end) (joined vs))
                 (flat_map (fun gk => missing required vs (fst gk)) gs ++
                  match fn with Some (_, link, _, ks) => missing required vs link ++ match ks with None => ["step"] | Some _ => [] end | None => [] end))
        end) = Ok o).
    { destruct F as [|l [|l' F]]; [exists None; split; [reflexivity|exact H]| |discriminate H].
      apply bind_ok in H. destruct H as (fn & E & H). exists fn. split; [|exact H]. destruct (l_funnel l) as [f|] eqn:L; [|discriminate E]. apply bind_ok in E. destruct E as ([[lk link] base] & B & E). apply bind_ok in E. destruct E as (qs & Q & E). injection E as <-. cbn [snd] in *. exists f, lk, link, base, qs. auto. }
    clear H. destruct Z as (fn & HF & H). cbv zeta in H. exists fn.
    destruct (existsb (unknown row) (filter (row_filter row) (r_where r))) eqn:U; [discriminate H|].
    assert (X : exists gs, mapM (fun l => match l_group l with Some g => ks <- group_cte row required value metric joined allowed filter_views g l ;; Ok (g, ks) | None => Err KeyError end) G = Ok gs /\
       Ok (Result row (all_views (match fn with Some (lk', _, _, _) => lk' | None => lookup r end)) (filter (fun x => allowed (views (lookup r)) x && forallb (fun c => meets row value c x) (filter (row_filter row) (r_where r)) && forallb (fun gk => isin (value (fst gk) x) (snd gk)) gs && match fn with Some (_, link, _, Some ks) => isin (value link x) ks | _ => true end) (joined (all_views (match fn with Some (lk', _, _, _) => lk' | None => lookup r end))))
                 (flat_map (fun gk => missing required (all_views (match fn with Some (lk', _, _, _) => lk' | None => lookup r end)) (fst gk)) gs ++
                  match fn with Some (_, link, _, ks) => missing required (all_views (match fn with Some (lk', _, _, _) => lk' | None => lookup r end)) link ++ match ks with None => ["step"] | Some _ => [] end | None => [] end)) = Ok o).
    { destruct G as [|g [|g' G']]; [| |discriminate H]; apply bind_ok in H; destruct H as (gs & M & H); exists gs; split; assumption. }
    destruct X as (gs & M & E). injection E as <-. exists gs. split; [exact HF|]. cbn [o_views o_rows o_missing]. split; [|split; [|auto]].
    - intros c I R. destruct (unknown row c) eqn:K; [|reflexivity]. assert (existsb (unknown row) (filter (row_filter row) (r_where r)) = true) by (apply existsb_exists; exists c; split; [apply filter_In; auto|exact K]). congruence.
    - apply mapM_ok in M. clear -M. induction M as [|l gk ls gs E M IH]; constructor; [|exact IH]. destruct (l_group l) as [g|]; [|discriminate E]. apply bind_ok in E. destruct E as (ks & K & E). injection E as <-. cbn [fst snd]. auto.
  Qed.
  Lemma full_iff c : empty_group row c = false -> unknown row c = false -> full c = true.
  Proof.
    unfold unknown. induction c as [l|any l IH] using cond_ind'; cbn [empty_group leaves full existsb]; intros E U; [rewrite orb_false_r in U; now rewrite U|].
    apply orb_false_iff in E. destruct E as [-> E]. cbn [negb andb]. rewrite Forall_forall in IH. apply forallb_forall. intros c I. apply IH; [exact I| |]; apply not_true_is_false; intros T.
    - assert (existsb (empty_group row) l = true) by (apply existsb_exists; eauto). congruence.
    - apply existsb_exists in T. destruct T as (x & Ix & T). assert (existsb (is_funnel row) (flat_map (leaves row) l) = true) by (apply existsb_exists; exists x; split; [apply in_flat_map; eauto|exact T]). congruence.
  Qed.
  Lemma run_plain r o : run r = Ok o -> forall c, In c (r_where r) -> plain_tree c.
  Proof.
    intros H c I. destruct (run_ok r o H) as (_ & _ & _ & UN & _). destruct c as [l|any l]; [exact Logic.I|]. apply full_iff; [|exact (UN _ I eq_refl)].
    unfold SetFilter_Model.run in H. apply bind_ok in H. destruct H as (u1 & _ & H). apply bind_ok in H. destruct H as (u2 & _ & H). destruct (existsb (empty_group row) (r_where r ++ r_having r)) eqn:E; [discriminate H|].
    apply not_true_is_false. intros K. assert (existsb (empty_group row) (r_where r ++ r_having r) = true) by (apply existsb_exists; exists (CGroup any l); split; [apply in_or_app; now left|exact K]). congruence.
  Qed.
  (** a group without conditions is refused *)
  Theorem C75_empty_group r c : In c (r_where r ++ r_having r) -> empty_group row c = true -> forall o, run r <> Ok o.
  Proof.
    intros I E o H. unfold SetFilter_Model.run in H. apply bind_ok in H. destruct H as (u1 & _ & H). apply bind_ok in H. destruct H as (u2 & _ & H).
    replace (existsb (empty_group row) (r_where r ++ r_having r)) with true in H; [discriminate H|]. symmetry. apply existsb_exists. eauto.
  Qed.
  Lemma group_filters_In cs l : In l (group_filters row cs) <-> In (CLeaf l) cs /\ l_group l <> None.
  Proof.
    unfold group_filters, no_group. rewrite in_flat_map. split.
    - intros (c & I & H). destruct c as [l'|]; [|destruct H]. destruct (l_group l') eqn:G; [|destruct H]. destruct H as [<-|[]]. split; [exact I|congruence].
    - intros [I N]. exists (CLeaf l). split; [exact I|]. destruct (l_group l); [now left|congruence].
  Qed.
  Lemma funnel_filters_In cs l : In l (funnel_filters row cs) <-> In (CLeaf l) cs /\ is_funnel row l = true.
  Proof.
    unfold funnel_filters. rewrite in_flat_map. split.
    - intros (c & I & H). destruct c as [l'|]; [|destruct H]. destruct (is_funnel row l') eqn:G; [|destruct H]. destruct H as [<-|[]]. auto.
    - intros [I N]. exists (CLeaf l). split; [exact I|]. rewrite N. now left.
  Qed.
  Lemma Forall2_In_l {A B} (R : A -> B -> Prop) l m a : Forall2 R l m -> In a l -> exists b, In b m /\ R a b.
  Proof. intros F. induction F as [|x y l m H F IH]; intros J0; [destruct J0|destruct J0 as [<-|I]]; [exists y; split; [now left|exact H]|]. destruct (IH I) as (b & J & K). exists b. split; [now right|exact K]. Qed.
  Lemma Forall2_In_r {A B} (R : A -> B -> Prop) l m b : Forall2 R l m -> In b m -> exists a, In a l /\ R a b.
  Proof. intros F. induction F as [|x y l m H F IH]; intros J0; [destruct J0|destruct J0 as [<-|I]]; [exists x; split; [now left|exact H]|]. destruct (IH I) as (a & J & K). exists a. split; [now right|exact K]. Qed.

  (** the conditions that are asked of a row, whatever is asked by the funnel condition *)
  Lemma rows_asked r gs link through x : (forall c, In c (r_where r) -> plain_tree c) ->
    Forall2 (fun l gk => l_group l = Some (fst gk) /\ group_cte row required value metric joined allowed filter_views (fst gk) l = Ok (snd gk)) (group_filters row (r_where r) ++ group_filters row (r_having r)) gs ->
    (forallb (fun c => meets row value c x) (filter (row_filter row) (r_where r)) && forallb (fun gk => isin (value (fst gk) x) (snd gk)) gs = true <->
     (forall c, In c (r_where r) -> (match c with CLeaf l => is_funnel row l = false | _ => True end) -> asks link through c x) /\
     (forall c, In c (r_having r) -> on_group c -> asks link through c x)).
  Proof.
    intros PT F. rewrite andb_true_iff, !forallb_forall.
    assert (GK : forall l g, In l (group_filters row (r_where r) ++ group_filters row (r_having r)) -> l_group l = Some g -> exists t ks, l_expr l = Compare t /\ In (g, ks) gs /\ (isin (value g x) ks = true <-> exists v, value g x = Some v /\ group_meets g (l_field l) t v)).
    { intros l g I L. destruct (Forall2_In_l _ _ _ l F I) as ([g' ks] & J & E & C). cbn [fst snd] in *. assert (g' = g) by congruence. subst g'.
      destruct (l_expr l) as [t|a b|a b] eqn:X; try (unfold group_cte in C; rewrite X in C; discriminate C). exists t, ks. split; [reflexivity|]. split; [exact J|]. rewrite isin_In.
      split; intros (v & V & H); exists v; (split; [exact V|]); now apply (group_cte_In g l t ks v X C). }
    split.
    - intros [A B]. assert (GA : forall l, In l (group_filters row (r_where r) ++ group_filters row (r_having r)) -> asks link through (CLeaf l) x).
      { intros l I. destruct (l_group l) as [g|] eqn:L; [|apply in_app_or in I; destruct I as [I|I]; apply group_filters_In in I; tauto].
        destruct (GK l g I L) as (t & ks & X & J & E). cbn [asks]. rewrite X, L. apply E. exact (B (g, ks) J). }
      split.
      + intros c I N. destruct c as [l|any l].
        * destruct (l_group l) as [g|] eqn:L; [apply GA, in_or_app; left; apply group_filters_In; split; [exact I|congruence]|].
          cbn [asks]. unfold is_funnel in N. destruct (l_expr l) as [t|a b|a b] eqn:X; try discriminate N. rewrite L.
          specialize (A (CLeaf l)). unfold meets in A. cbn [criterion] in A. rewrite X in A. apply A. apply filter_In. split; [exact I|]. cbn. unfold no_group, is_funnel. rewrite L, X. reflexivity.
        * cbn [asks]. rewrite <- meets_tree; [|exact (PT _ I)]. apply A. apply filter_In. split; [exact I|reflexivity].
      + intros c I N. destruct c as [l|]; [|destruct N]. apply GA, in_or_app. right. apply group_filters_In. auto.
    - intros [A B]. split.
      + intros c I. apply filter_In in I. destruct I as [I R]. destruct c as [l|any l].
        * cbn [row_filter] in R. apply andb_true_iff in R. destruct R as [R1 R2]. apply negb_true_iff in R2. specialize (A _ I R2). cbn [asks] in A. unfold no_group in R1. destruct (l_group l); [discriminate R1|].
          unfold is_funnel in R2. unfold meets. cbn [criterion]. destruct (l_expr l); try discriminate R2. exact A.
        * rewrite meets_tree; [|exact (PT _ I)]. exact (A _ I Logic.I).
      + intros [g ks] J. cbn [fst snd]. destruct (Forall2_In_r _ _ _ (g, ks) F J) as (l & I & E & C). cbn [fst snd] in *.
        destruct (l_expr l) as [t|a b|a b] eqn:X; try (unfold group_cte in C; rewrite X in C; discriminate C).
        assert (Q : asks link through (CLeaf l) x).
        { apply in_app_or in I. destruct I as [I|I]; apply group_filters_In in I; destruct I as [I N]; [apply (A _ I); unfold is_funnel; now rewrite X|exact (B _ I N)]. }
        cbn [asks] in Q. rewrite X, E in Q. apply isin_In. destruct Q as (v & V & H). exists v. split; [exact V|]. now apply (group_cte_In g l t ks v X C).
  Qed.

  (** C75: a query without funnel condition is computed over exactly those rows of its views that the user may see, that
      meet its conditions, and whose group meets every condition on groups.  A group is all visible rows of the join of the
      view of the group and the view of the metric. *)
  Theorem C75_rows r o : run r = Ok o -> (forall l, In (CLeaf l) (r_where r) -> is_funnel row l = false) ->
    o_views row o = all_views (lookup r) /\
    exists keep, o_rows row o = filter keep (joined (o_views row o)) /\
      forall x, keep x = true <-> allowed (views (lookup r)) x = true /\ (forall c, In c (r_where r) -> asks "" (fun _ _ => False) c x) /\ (forall c, In c (r_having r) -> on_group c -> asks "" (fun _ _ => False) c x).
  Proof.
    intros H NF. pose proof (run_plain r o H) as PT. destruct (run_ok r o H) as (fn & gs & HF & _ & F & V & R & _).
    assert (E : funnel_filters row (r_where r) = []). { destruct (funnel_filters row (r_where r)) as [|l ?] eqn:E; [reflexivity|]. assert (I : In l (funnel_filters row (r_where r))) by (rewrite E; now left). apply funnel_filters_In in I. destruct I as [I K]. rewrite (NF l I) in K. discriminate K. }
    rewrite E in HF. subst fn. split; [exact V|]. eexists. split; [exact R|]. intros x. cbv beta iota. rewrite andb_true_r, <- andb_assoc, andb_true_iff, (rows_asked r gs "" (fun _ _ => False) x PT F).
    split; intros (A & B & C); (split; [exact A|]; split; [|exact C]); intros c I; [apply B; [exact I|]|intros _; now apply B]. destruct c as [l|]; [exact (NF l I)|exact Logic.I].
  Qed.
  (** C74: with a funnel condition, of a funnel whose later steps are lists of conditions, the rows are those whose customer
      has gone through the step it starts with and, or but not, through the step it ends with.  The events are the rows that meet the
      conditions of the query that are not on groups. *)
  Theorem C74_rows r o l fn : run r = Ok o -> In (CLeaf l) (r_where r) -> is_funnel row l = true -> l_funnel l = Some fn -> (forall s, In s (tl (fn_steps fn)) -> plain s) ->
    ~ In "step" (o_missing row o) ->
    exists lk link base, funnel_base r fn = Ok (lk, link, base) /\ o_views row o = all_views lk /\
      exists keep, o_rows row o = filter keep (joined (o_views row o)) /\
        forall x, keep x = true <-> allowed (views (lookup r)) x = true /\ (forall c, In c (r_where r) -> asks link (through_of fn base) c x) /\ (forall c, In c (r_having r) -> on_group c -> asks link (through_of fn base) c x).
  Proof.
    intros H Il Kl Lf PS NM. pose proof (run_plain r o H) as PT. destruct (run_ok r o H) as (f & gs & HF & UN & F & V & R & M).
    assert (E : funnel_filters row (r_where r) = [l]).
    { pose proof (proj2 (funnel_filters_In (r_where r) l) (conj Il Kl)) as J. destruct (funnel_filters row (r_where r)) as [|a [|b m]]; [destruct J|destruct J as [->|[]]; reflexivity|destruct HF]. }
    assert (ONLY : forall l', In (CLeaf l') (r_where r) -> is_funnel row l' = true -> l' = l).
    { intros l' I K. pose proof (proj2 (funnel_filters_In (r_where r) l') (conj I K)) as J. rewrite E in J. destruct J as [->|[]]. reflexivity. }
    rewrite E in HF. destruct HF as (fn' & lk & link & base & qs & L' & B & S & ->). assert (fn' = fn) by congruence. subst fn'.
    exists lk, link, base. split; [exact B|]. split; [exact V|]. eexists. split; [exact R|]. intros x. cbv beta iota.
    destruct (funnel_cte row (l_expr l) base qs) as [ks|] eqn:C; [|exfalso; apply NM; rewrite M; apply in_or_app; right; apply in_or_app; right; now left].
    rewrite andb_true_iff, <- andb_assoc, andb_true_iff, (rows_asked r gs link (through_of fn base) x PT F), isin_In.
    assert (Q : (exists v, value link x = Some v /\ In (Some v) ks) <-> asks link (through_of fn base) (CLeaf l) x).
    { cbn [asks]. pose proof (fun v => funnel_cte_In (fn_steps fn) (fn_window fn) base qs (l_expr l) ks v S PS C) as P. unfold is_funnel in Kl. destruct (l_expr l) as [t|a b|a b]; [discriminate Kl| |]; (destruct (l_group l) as [g|]; split; intros (v & X & Y); exists v; (split; [exact X|]); apply (P v); exact Y). }
    rewrite Q. split.
    - intros ((A & W & HV) & G). split; [exact A|]. split; [|exact HV]. intros c I. destruct c as [l'|any m]; [|exact (W _ I Logic.I)]. destruct (is_funnel row l') eqn:K; [rewrite (ONLY l' I K); exact G|exact (W _ I K)].
    - intros (A & W & HV). split; [|exact (W _ Il)]. split; [exact A|]. split; [|exact HV]. intros c I _. exact (W _ I).
  Qed.
  (** what the events of the funnel are *)
  Theorem C74_events r fn lk link base : funnel_base r fn = Ok (lk, link, base) -> (forall c, In c (r_where r) -> plain_tree c) ->
    In link customers /\ incl (lookup r) lk /\ In link lk /\ incl (fn_fields fn) lk /\ incl (r_metrics r) lk /\
    exists keep date, event_date default_date (fn_view fn) (map view_of (r_metrics r)) = Ok date /\ In date lk /\
      base = map (fun x => Event (value link x) (instant date x) x) (filter keep (joined (all_views lk))) /\
      forall x, keep x = true <-> allowed (views lk) x = true /\ forall c, In c (r_where r) -> (match c with CLeaf l => l_group l = None /\ l_funnel l = None | _ => True end) -> asks "" (fun _ _ => False) c x.
  Proof.
    intros H PT. unfold SetFilter_Model.funnel_base in H. apply bind_ok in H. destruct H as (date & D & H). apply bind_ok in H. destruct H as (hs & HM & H). apply bind_ok in H. destruct H as (k & K & H). apply bind_ok in H. destruct H as (lk' & LK & H).
    destruct (existsb (unknown row) _) eqn:U; [discriminate H|]. injection H as <- <- <-.
    assert (IK : In k customers). { unfold link_field in K. destruct (common _) as [|g gs]; [destruct customers as [|a [|]]; try discriminate K; injection K as <-; now left|].
      match type of K with context [filter ?p customers] => destruct (filter p customers) as [|a [|]] eqn:Fl; try discriminate K; injection K as <-; apply (fun I => proj1 (proj1 (filter_In p a customers) I)); rewrite Fl; now left end. }
    assert (AD : forall f l, In f (add f l) /\ incl l (add f l)). { intros f l. unfold add. destruct (mem f l) eqn:E; [split; [now apply mem_In|intros y; auto]|split; [apply in_or_app; right; now left|intros y I; apply in_or_app; now left]]. }
    assert (FA : forall ds l, incl ds (fold_left (fun l d => add d l) ds l) /\ incl l (fold_left (fun l d => add d l) ds l)).
    { induction ds as [|d ds IH]; intros l; [split; intros y I; [destruct I|exact I]|]. cbn [fold_left]. destruct (IH (add d l)) as [P Q]. destruct (AD d l) as [P' Q']. split; intros y I; [destruct I as [<-|I]; auto|auto]. }
    assert (MA : forall ms l l', add_metrics view_of primary_key ms l = Ok l' -> incl ms l' /\ incl l l').
    { induction ms as [|m ms IH]; intros l l' E; cbn [add_metrics] in E; [injection E as <-; split; intros y I; [destruct I|exact I]|]. destruct (primary_key (view_of m)) as [pk|]; [|discriminate E]. destruct (IH _ _ E) as [P Q]. destruct (AD m (add pk l)) as [P1 Q1]. destruct (AD pk l) as [_ Q2]. split; intros y I; [destruct I as [<-|I]; auto|auto]. }
    unfold enrich in LK. destruct (MA _ _ _ LK) as [M1 M2]. destruct (FA ([date; k] ++ fn_fields fn) (lookup r)) as [F1 F2].
    split; [exact IK|]. split; [intros y I; apply M2, F2, I|]. split; [apply M2, F1; right; now left|]. split; [intros y I; apply M2, F1; right; right; exact I|]. split; [intros y I; apply M1, in_or_app; now left|].
    eexists. exists date. split; [exact D|]. split; [apply M2, F1; now left|]. split; [reflexivity|]. intros x. cbv beta. rewrite andb_true_iff, forallb_forall.
    assert (UN : forall c, In c (r_where r) -> of_funnel row c = true -> unknown row c = false).
    { intros c I O. destruct (unknown row c) eqn:X; [|reflexivity]. assert (existsb (unknown row) (filter (of_funnel row) (r_where r)) = true) by (apply existsb_exists; exists c; split; [apply filter_In; auto|exact X]). congruence. }
    assert (OF : forall l, of_funnel row (CLeaf l) = true <-> l_group l = None /\ l_funnel l = None). { intros l. cbn [of_funnel]. unfold no_funnel, no_group. destruct (l_funnel l), (l_group l); cbn; intuition congruence. }
    assert (CR : forall c, In c (r_where r) -> of_funnel row c = true -> (meets row value c x = true <-> asks "" (fun _ _ => False) c x)).
    { intros c I O. destruct c as [l|any m]; [|rewrite (meets_tree _ x (PT _ I)); reflexivity]. pose proof (UN _ I O) as X. unfold unknown in X. cbn [leaves existsb] in X. rewrite orb_false_r in X. unfold is_funnel in X. apply OF in O. destruct O as [O _]. unfold meets. cbn [criterion asks]. rewrite O. destruct (l_expr l); try discriminate X. reflexivity. }
    split; intros [A W]; (split; [exact A|]).
    - intros c I N. assert (O : of_funnel row c = true) by (destruct c as [l|]; [now apply OF|reflexivity]). apply CR; auto. apply W, filter_In. auto.
    - intros c I. apply filter_In in I. destruct I as [I O]. apply CR; auto. apply W; [exact I|]. destruct c as [l|]; [now apply OF|exact Logic.I].
  Qed.

  (** every view that the columns, the order and the conditions on rows and on the result use is joined *)
  Definition uses (r : request) (f : string) : Prop :=
    In f (r_metrics r) \/ In f (r_dims r) \/ In f (r_order r) \/ exists c l, In c (r_where r ++ r_having r) /\ In l (leaves row c) /\ l_group l = None /\ l_field l = f.
  Lemma lookup_uses r f : In f (lookup r) <-> uses r f.
  Proof.
    unfold SetFilter_Model.lookup, uses, identifiers. rewrite dedup_In, !in_app_iff.
    assert (X : forall cs, In f (map l_field (filter (no_group row) (flat_map (leaves row) cs))) <-> exists c l, In c cs /\ In l (leaves row c) /\ l_group l = None /\ l_field l = f).
    { intros cs. rewrite in_map_iff. split.
      - intros (l & E & I). apply filter_In in I. destruct I as [I G]. apply in_flat_map in I. destruct I as (c & Ic & Il). exists c, l. unfold no_group in G. destruct (l_group l); [discriminate G|auto].
      - intros (c & l & Ic & Il & G & E). exists l. split; [exact E|]. apply filter_In. split; [apply in_flat_map; eauto|]. unfold no_group. now rewrite G. }
    rewrite !X. split.
    - intros [H|[H|[(c & l & I & H)|[(c & l & I & H)|H]]]]; auto; right; right; right; exists c, l; (split; [apply in_or_app; auto|exact H]).
    - intros [H|[H|[H|(c & l & I & H)]]]; auto. apply in_app_or in I. destruct I as [I|I]; [right; right; left|right; right; right; left]; exists c, l; auto.
  Qed.
  Theorem C75_joined r o f : run r = Ok o -> uses r f -> incl (required f) (o_views row o).
  Proof.
    intros H U. apply lookup_uses in U. destruct (run_ok r o H) as (fn & gs & HF & _ & _ & V & _).
    assert (L : incl (lookup r) (match fn with Some (lk', _, _, _) => lk' | None => lookup r end)).
    { destruct (funnel_filters row (r_where r)) as [|l [|]]; [subst fn; intros y; auto| |destruct HF]. destruct HF as (f' & lk & link & base & qs & _ & B & _ & ->). exact (proj1 (proj2 (C74_events r f' lk link base B (run_plain r o H)))). }
    rewrite V. intros v I. unfold SetFilter_Model.all_views. rewrite dedup_In, in_app_iff. left. unfold SetFilter_Model.views. rewrite dedup_In. apply in_flat_map. exists f. split; [now apply L|exact I].
  Qed.
  (** C74: the link is the only customer field in a join graph that all fields of the funnel have in common, when there is such a graph *)
  Definition in_funnel (r : request) (fn : funnel) (date f : string) : Prop :=
    In f (r_metrics r) \/ f = date \/ In f (fn_fields fn) \/ exists l, l_field l = f /\ (In (CLeaf l) (r_having r) \/ In (CLeaf l) (r_where r) /\ l_group l = None /\ l_funnel l = None).
  Lemma common_In l x : l <> [] -> (In x (common l) <-> forall g, In g l -> In x g).
  Proof.
    induction l as [|g l IH]; [congruence|]. intros _. destruct l as [|g' l]; [cbn; split; [intros H y [<-|[]]; exact H|intros H; apply H; now left]|].
    cbn [common]. rewrite filter_In, mem_In, IH by discriminate. split; [intros [A B] y [<-|I]; auto|intros H; split; [apply H; now left|intros y I; apply H; now right]].
  Qed.
  Theorem C74_link r fn lk link base date : funnel_base r fn = Ok (lk, link, base) -> event_date default_date (fn_view fn) (map view_of (r_metrics r)) = Ok date ->
    (exists g, forall f, in_funnel r fn date f -> In g (graphs f)) ->
    forall k, In k customers -> ((exists g, In g (graphs k) /\ forall f, in_funnel r fn date f -> In g (graphs f)) <-> k = link).
  Proof.
    intros H D G. unfold SetFilter_Model.funnel_base in H. rewrite D in H. cbn [bind] in H. apply bind_ok in H. destruct H as (hs & HM & H). apply bind_ok in H. destruct H as (k0 & K & H). apply bind_ok in H. destruct H as (lk' & _ & H).
    destruct (existsb (unknown row) _); [discriminate H|]. injection H as <- <- <-.
    set (fs := (r_metrics r ++ hs) ++ [date] ++ fn_fields fn ++ map l_field (flat_map (direct row) (filter (of_funnel row) (r_where r)))) in *.
    assert (DI : forall cs l, In l (flat_map (direct row) cs) <-> In (CLeaf l) cs).
    { intros cs l. rewrite in_flat_map. split; [intros (c & I & J); destruct c; [destruct J as [->|[]]; exact I|destruct J]|intros I; exists (CLeaf l); split; [exact I|now left]]. }
    assert (HS : forall f, In f hs <-> exists l, l_field l = f /\ In (CLeaf l) (r_having r)).
    { unfold having_metrics in HM. destruct (existsb _ _); [discriminate HM|]. injection HM as <-. intros f. rewrite dedup_In, in_map_iff. split; intros (l & E & I); exists l; (split; [exact E|]); now apply DI. }
    assert (FS : forall f, In f fs <-> in_funnel r fn date f).
    { intros f. unfold fs, in_funnel. rewrite !in_app_iff, HS, in_map_iff. cbn [In].
      assert (OF : forall l, In l (flat_map (direct row) (filter (of_funnel row) (r_where r))) <-> In (CLeaf l) (r_where r) /\ l_group l = None /\ l_funnel l = None).
      { intros l. rewrite DI, filter_In. cbn [of_funnel]. unfold no_funnel, no_group. destruct (l_funnel l), (l_group l); cbn; intuition congruence. }
      split.
      - intros [[A|(l & E & I)]|[[A|[]]|[A|(l & E & I)]]]; [auto|right; right; right; exists l; auto|auto|auto|]. right. right. right. exists l. split; [exact E|]. right. now apply OF.
      - intros [A|[A|[A|(l & E & [I|I])]]]; [auto|right; left; left; congruence|auto|left; right; eauto|]. right. right. right. exists l. split; [exact E|]. now apply OF. }
    assert (NE : map graphs fs <> []) by (unfold fs; destruct (r_metrics r ++ hs); discriminate).
    assert (CG : forall g, In g (common (map graphs fs)) <-> forall f, in_funnel r fn date f -> In g (graphs f)).
    { intros g. rewrite (common_In _ _ NE). split; [intros A f I; apply A, in_map_iff; exists f; split; [reflexivity|now apply FS]|intros A y I; apply in_map_iff in I; destruct I as (f & <- & I); apply A; now apply FS]. }
    destruct G as [g0 G0]. apply CG in G0. unfold link_field in K. destruct (common (map graphs fs)) as [|g1 gs] eqn:EC; [destruct G0|].
    match type of K with context [filter ?p customers] => assert (X : forall k, In k (filter p customers) <-> In k [k0]) by (destruct (filter p customers) as [|a [|]]; try discriminate K; injection K as ->; tauto) end.
    intros k Ik. specialize (X k). rewrite filter_In in X. cbn [In] in X. split.
    - intros (g & Gk & A). destruct (proj1 X) as [E|[]]; [|congruence]. split; [exact Ik|]. apply existsb_exists. exists g. split; [now apply CG|now apply mem_In].
    - intros ->. destruct (proj2 X (or_introl eq_refl)) as [_ E]. apply existsb_exists in E. destruct E as (g & Ig & M). exists g. split; [now apply mem_In|now apply CG].
  Qed.
  (** C74: without a common join graph the only customer field there is, is used *)
  Theorem C74_no_graph_refuted r fn lk link base date : funnel_base r fn = Ok (lk, link, base) -> event_date default_date (fn_view fn) (map view_of (r_metrics r)) = Ok date ->
    (forall g, exists f, in_funnel r fn date f /\ ~ In g (graphs f)) -> customers = [link].
  Proof.
    intros H D G. unfold SetFilter_Model.funnel_base in H. rewrite D in H. cbn [bind] in H. apply bind_ok in H. destruct H as (hs & HM & H). apply bind_ok in H. destruct H as (k0 & K & H). apply bind_ok in H. destruct H as (lk' & _ & H).
    destruct (existsb (unknown row) _); [discriminate H|]. injection H as <- <- <-.
    set (fs := (r_metrics r ++ hs) ++ [date] ++ fn_fields fn ++ map l_field (flat_map (direct row) (filter (of_funnel row) (r_where r)))) in *.
    destruct (common (map graphs fs)) as [|g gs] eqn:EC.
    - unfold link_field in K. destruct customers as [|a [|]]; try discriminate K. injection K as ->. reflexivity.
    - exfalso. destruct (G g) as (f & F & N). apply N. assert (NE : map graphs fs <> []) by (unfold fs; destruct (r_metrics r ++ hs); discriminate).
      apply (proj1 (common_In (map graphs fs) g NE)); [rewrite EC; now left|]. apply in_map_iff. exists f. split; [reflexivity|]. unfold fs. unfold having_metrics in HM. destruct (existsb _ _); [discriminate HM|]. injection HM as <-.
      rewrite !in_app_iff, dedup_In, !in_map_iff. cbn [In].
      assert (DI : forall cs l, In (CLeaf l) cs -> In l (flat_map (direct row) cs)) by (intros cs l I; apply in_flat_map; exists (CLeaf l); split; [exact I|now left]).
      destruct F as [A|[A|[A|(l & E & [I|(I & L1 & L2)])]]]; [auto|right; left; left; congruence|auto|left; right; exists l; auto|]. right. right. right. exists l. split; [exact E|]. apply DI, filter_In. split; [exact I|]. cbn. unfold no_funnel, no_group. now rewrite L1, L2.
  Qed.
  (** C75: rows without a group are never kept *)
  Theorem C75_null r o l g x : run r = Ok o -> In (CLeaf l) (r_where r ++ r_having r) -> l_group l = Some g -> In x (o_rows row o) -> value g x <> None.
  Proof.
    intros H I L Ix. destruct (run_ok r o H) as (fn & gs & _ & _ & F & _ & R & _). rewrite R in Ix. apply filter_In in Ix. destruct Ix as [_ K]. rewrite !andb_true_iff in K. destruct K as [[_ K] _].
    assert (J : In l (group_filters row (r_where r) ++ group_filters row (r_having r))). { apply in_app_or in I. apply in_or_app. destruct I as [I|I]; [left|right]; apply group_filters_In; (split; [exact I|congruence]). }
    destruct (Forall2_In_l _ _ _ l F J) as ([g' ks] & Jg & E & _). cbn [fst] in E. assert (g' = g) by congruence. subst g'. rewrite forallb_forall in K. specialize (K _ Jg). cbn [fst snd] in K. apply isin_In in K. destruct K as (v & -> & _). discriminate.
  Qed.
  (** C75: two conditions on groups are always refused, with an error that is not of the library *)
  Theorem C75_two_refuted r : 2 <= List.length (group_filters row (r_where r) ++ group_filters row (r_having r)) -> forall o, run r <> Ok o.
  Proof.
    intros L o H. destruct (run_ok r o H) as (fn & gs & _ & _ & _). unfold SetFilter_Model.run in H. apply bind_ok in H. destruct H as (u1 & _ & H). apply bind_ok in H. destruct H as (u2 & _ & H). destruct (existsb (empty_group row) (r_where r ++ r_having r)); [discriminate H|].
    destruct (group_filters row (r_where r) ++ group_filters row (r_having r)) as [|a [|b m]]; [cbn in L; lia|cbn in L; lia|].
    destruct (funnel_filters row (r_where r)) as [|f [|f' fs]]; [| |discriminate H]; apply bind_ok in H; destruct H as (z & _ & H); destruct (existsb (unknown row) (filter (row_filter row) (r_where r))); discriminate H.
  Qed.
  (** C74: two funnel conditions are refused *)
  Theorem C74_two r : 2 <= List.length (funnel_filters row (r_where r)) -> forall o, run r <> Ok o.
  Proof. intros L o H. destruct (run_ok r o H) as (fn & gs & HF & _). destruct (funnel_filters row (r_where r)) as [|a [|b m]]; cbn in L; [lia|lia|exact HF]. Qed.
  (** C74: a funnel condition without its funnel is not refused as such *)
  Theorem C74_without_funnel_refuted r l : (forall c, In c (r_where r ++ r_having r) -> exists l, c = CLeaf l) -> funnel_filters row (r_where r) = [l] -> l_funnel l = None -> run r = Err AttributeError.
  Proof.
    intros A E L. unfold SetFilter_Model.run. assert (C : forall cs, (forall c, In c cs -> exists l, c = CLeaf l) -> exists u, mapM (check_group row is_measure (lookup r)) cs = Ok u).
    { induction cs as [|c cs IH]; intros K; [eexists; reflexivity|]. destruct (K c (or_introl eq_refl)) as [l' ->]. destruct (IH (fun c I => K c (or_intror I))) as [u Eu]. cbn [mapM check_group bind]. rewrite Eu. eexists. reflexivity. }
    destruct (C (r_where r) (fun c I => A c (in_or_app _ _ _ (or_introl I)))) as [u1 ->]. destruct (C (r_having r) (fun c I => A c (in_or_app _ _ _ (or_intror I)))) as [u2 ->]. cbn [bind].
    replace (existsb (empty_group row) (r_where r ++ r_having r)) with false; [rewrite E, L; reflexivity|]. symmetry. apply not_true_is_false. intros K. apply existsb_exists in K. destruct K as (c & I & K). destruct (A c I) as [l' ->]. discriminate K.
  Qed.
  (** C75: the view of the group is not joined for the condition *)
  Theorem C75_view_missing_refuted r o l g v : run r = Ok o -> funnel_filters row (r_where r) = [] -> In (CLeaf l) (r_where r ++ r_having r) -> l_group l = Some g -> In v (required g) -> ~ In v (all_views (lookup r)) -> In v (o_missing row o).
  Proof.
    intros H E I L Iv Nv. destruct (run_ok r o H) as (fn & gs & HF & _ & F & V & _ & M). rewrite E in HF. subst fn. rewrite M, V. apply in_or_app. left. apply in_flat_map.
    assert (J : In l (group_filters row (r_where r) ++ group_filters row (r_having r))). { apply in_app_or in I. apply in_or_app. destruct I as [I|I]; [left|right]; apply group_filters_In; (split; [exact I|congruence]). }
    destruct (Forall2_In_l _ _ _ l F J) as ([g' ks] & Jg & Eg & _). cbn [fst] in Eg. assert (g' = g) by congruence. subst g'. exists (g, ks). split; [exact Jg|]. cbn [fst]. unfold missing. apply filter_In. split; [exact Iv|]. apply negb_true_iff, mem_false. exact Nv.
  Qed.
  (** and what is missing is exactly the views of the groups, and of a funnel only a step that it does not have *)
  Theorem C75_missing r o v : run r = Ok o -> funnel_filters row (r_where r) = [] -> In v (o_missing row o) -> ~ In v (o_views row o) /\ exists l g, In (CLeaf l) (r_where r ++ r_having r) /\ l_group l = Some g /\ In v (required g).
  Proof.
    intros H E I. destruct (run_ok r o H) as (fn & gs & HF & _ & F & V & _ & M). rewrite E in HF. subst fn. rewrite M, app_nil_r in I. apply in_flat_map in I. destruct I as ([g ks] & Jg & I). cbn [fst] in I. unfold missing in I. apply filter_In in I. destruct I as [Iv N]. apply negb_true_iff, mem_false in N. split; [exact N|].
    destruct (Forall2_In_r _ _ _ _ F Jg) as (l & J & Eg & _). cbn [fst] in Eg. exists l, g. split; [|auto]. apply in_app_or in J. apply in_or_app. destruct J as [J|J]; apply group_filters_In in J; tauto.
  Qed.
  (** C74: a step the funnel does not have is not refused, its table is missing *)
  Theorem C74_no_step_refuted r o l fn a b : run r = Ok o -> funnel_filters row (r_where r) = [l] -> l_funnel l = Some fn -> (l_expr l = Converted a b \/ l_expr l = DroppedOff a b) -> a = 0 \/ b = 0 \/ List.length (fn_steps fn) < a \/ List.length (fn_steps fn) < b -> In "step" (o_missing row o).
  Proof.
    intros H E L X B. destruct (run_ok r o H) as (f & gs & HF & _ & _ & _ & _ & M). rewrite E in HF. destruct HF as (fn' & lk & link & base & qs & L' & _ & S & ->). assert (fn' = fn) by congruence. subst fn'.
    assert (LQ : List.length qs = List.length (fn_steps fn)). { destruct (fn_steps fn) as [|s ss]; [discriminate S|]. cbn [step_queries] in S. injection S as <-. cbn [List.length]. f_equal. generalize (step_1 s base). clear. induction ss as [|s ss IH]; intros p; [reflexivity|]. cbn. now rewrite IH. }
    assert (SC : forall n, n = 0 \/ List.length (fn_steps fn) < n -> step_column row qs n = None). { intros [|n] K; [reflexivity|]. cbn [step_column]. destruct (nth_error qs n) eqn:N; [|reflexivity]. assert (n < List.length qs) by (apply nth_error_Some; congruence). lia. }
    assert (N : funnel_cte row (l_expr l) base qs = None). { destruct X as [->| ->]; cbn [funnel_cte]; (destruct (step_column row qs a) eqn:Ea; [|reflexivity]); (destruct (step_column row qs b) eqn:Eb; [|reflexivity]); exfalso; destruct B as [B|[B|[B|B]]]; first [rewrite (SC a) in Ea by auto; discriminate Ea|rewrite (SC b) in Eb by auto; discriminate Eb]. }
    rewrite M, N. apply in_or_app. right. apply in_or_app. right. now left.
  Qed.
  (** C74: conditions on the result in a group are refused with a KeyError *)
  Theorem C74_having_group_refuted r fn any cs date : event_date default_date (fn_view fn) (map view_of (r_metrics r)) = Ok date -> In (CGroup any cs) (r_having r) -> funnel_base r fn = Err KeyError.
  Proof.
    intros D I. unfold SetFilter_Model.funnel_base. rewrite D. cbn [bind]. unfold having_metrics.
    replace (existsb (fun c => match c with CGroup _ _ => true | CLeaf _ => false end) (r_having r)) with true; [reflexivity|]. symmetry. apply existsb_exists. eexists. split; [exact I|reflexivity].
  Qed.
  (** C74: two metrics are refused unless the funnel names a view, also when they are of one view *)
  Theorem C74_two_metrics_refuted r fn : 2 <= List.length (r_metrics r) -> fn_view fn = None -> (forall v, default_date v <> None) -> funnel_base r fn = Err QueryError.
  Proof.
    intros L N D. unfold SetFilter_Model.funnel_base, event_date. rewrite N.
    assert (M : forall vs, exists ds, mapM (date_of_view default_date) vs = Ok ds /\ List.length ds = List.length vs).
    { induction vs as [|v vs (ds & E & K)]; [exists []; auto|]. cbn [mapM]. unfold date_of_view at 1. pose proof (D v) as Dv. destruct (default_date v) as [d|]; [|congruence].
      assert (X : exists a, (if has_char dot d then match split_char dot d with a :: r0 => Ok (a, List.last r0 a) | [] => Ok (v, d) end else Ok (v, d)) = Ok a) by (destruct (has_char dot d); [destruct (split_char dot d)|]; eexists; reflexivity).
      destruct X as [a ->]. cbn [bind]. rewrite E. cbn [bind]. eexists. split; [reflexivity|]. cbn. now rewrite K. }
    destruct (M (map view_of (r_metrics r))) as (ds & E & K). rewrite E. cbn [bind]. rewrite map_length in K. destruct ds as [|[a b] [|y ds]]; cbn in K; [reflexivity|lia|reflexivity].
  Qed.
End Filters.

(** ** A project: orders, customers, order lines *)
Definition r0 : Type := (list (string * string) * Z)%type.
Definition vo (f : string) : string := hd "" (split_char dot f).
Definition val0 (f : string) (x : r0) : val := assoc f (fst x).
(** metrics count rows, in ones *)
Definition met0 (m : string) (vs : list string) (l : list r0) : val := Some (fold_right (fun _ s => ("1" ++ s)%string) "" l).
Definition order (id : string) (who : list (string * string)) (day : Z) : r0 := (("orders.id", id) :: who, day).
Definition ann := [("customers.id", "ann"); ("customers.region", "north")].
Definition bob := [("customers.id", "bob"); ("customers.region", "south")].
Definition cid := [("customers.id", "cid"); ("customers.region", "south")].
Definition line (ch id : string) (who : list (string * string)) (day : Z) : r0 := (("lines.channel", ch) :: ("orders.id", id) :: who, day).
Definition order_rows : list r0 := [order "1" ann 1; order "2" ann 2; order "3" bob 1; order "4" ann 3; order "5" [] 1; order "6" cid 1].
Definition line_rows : list r0 := [line "organic" "1" ann 1; line "paid" "2" ann 2; line "organic" "3" bob 1; line "paid" "5" [] 1].
Definition joined0 (vs : list string) : list r0 := if mem "lines" vs then line_rows else order_rows.
Definition run0 := run r0 vo (fun f => [vo f]) (fun f => mem f ["orders.number"; "lines.number"]) (fun _ => Some "day") (fun v => Some (v ++ ".id")%string) ["customers.id"] (fun _ => ["g"])
  val0 (fun _ x => Some (snd x)) met0 joined0 (fun _ _ => true) (fun _ => []) (fun a b => b - a)%Z.
Definition asks0 := asks r0 (fun f => [vo f]) val0 met0 joined0 (fun _ _ => true) (fun _ => []).
Definition base0 := funnel_base r0 vo (fun f => [vo f]) (fun _ => Some "day") (fun v => Some (v ++ ".id")%string) ["customers.id"] (fun _ => ["g"]) val0 (fun _ x => Some (snd x)) joined0 (fun _ _ => true) (fun _ => []).
Definition at_least (n : nat) (v : val) : bool := match v with Some s => Nat.leb n (String.length s) | None => false end.
Definition none_of (v : val) : bool := match v with Some s => String.eqb s "" | None => true end.
Definition channel (c : string) (x : r0) : bool := match val0 "lines.channel" x with Some d => String.eqb c d | None => false end.
Definition fun0 : funnel r0 := FunnelOf [SConditions [channel "organic"]; SConditions [channel "paid"]] ["lines.channel"] None 3.
Definition on_customer (t : val -> bool) : cond r0 := CLeaf (Leaf "lines.number" (Compare t) (Some "customers.id") None).
Definition asked_with (w : list (cond r0)) : request r0 := Request ["orders.number"] ["customers.region"] w [] [].
Definition done (e : expr) : leaf r0 := Leaf "customers.id" e None (Some fun0).
(** the orders of the customers who have two lines; the orders of the region south too *)
Example C75_case : exists o, run0 (asked_with [on_customer (at_least 2)]) = Ok o /\ o_rows r0 o = [order "1" ann 1; order "2" ann 2; order "4" ann 3] /\ o_missing r0 o = [].
Proof. eexists. split; [reflexivity|]. split; reflexivity. Qed.
Example C74_case : exists o, run0 (asked_with [CLeaf (done (Converted 1 2))]) = Ok o /\ o_rows r0 o = [line "organic" "1" ann 1; line "paid" "2" ann 2] /\ o_missing r0 o = [].
Proof. eexists. split; [vm_compute; reflexivity|]. split; reflexivity. Qed.
Example C74_dropped_case : exists o, run0 (asked_with [CLeaf (done (DroppedOff 1 2))]) = Ok o /\ o_rows r0 o = [line "organic" "3" bob 1] /\ o_missing r0 o = [].
Proof. eexists. split; [vm_compute; reflexivity|]. split; reflexivity. Qed.
Example C74_base_case : exists lk base, base0 (asked_with []) fun0 = Ok (lk, "customers.id", base) /\ List.length base = 4.
Proof. do 2 eexists. split; [vm_compute; reflexivity|reflexivity]. Qed.
Example C74_link_case : in_funnel r0 (asked_with []) fun0 "orders.day_raw" "lines.channel" /\ event_date (fun _ => Some "day") None (map vo ["orders.number"]) = Ok "orders.day_raw".
Proof. split; [right; right; left; now left|reflexivity]. Qed.
Example C75_uses : uses r0 (asked_with []) "customers.region".
Proof. right. left. now left. Qed.
Example C75_missing_case : exists o, run0 (Request ["orders.number"] [] [on_customer (at_least 2)] [] []) = Ok o /\ o_missing r0 o = ["customers"].
Proof. eexists. split; reflexivity. Qed.
Example C75_two_case : run0 (asked_with [on_customer (at_least 1); on_customer (at_least 2)]) = Err TypeError.
Proof. reflexivity. Qed.
(** C75: a group without rows is never kept: cid has no lines, a condition that is true of no lines does not keep their order *)
Theorem C75_no_rows_refuted : exists t o, run0 (asked_with [on_customer t]) = Ok o /\ t (met0 "lines.number" [] []) = true /\ In (order "6" cid 1) (joined0 (o_views r0 o)) /\ ~ In (order "6" cid 1) (o_rows r0 o).
Proof. exists none_of. eexists. split; [reflexivity|]. split; [reflexivity|]. split; [vm_compute; tauto|]. vm_compute. tauto. Qed.
(** C75: in a group of conditions group_by is not used: the condition is asked of the rows themselves, where the metric is its
    column; and a metric that is not in the query is a KeyError *)
Theorem C75_nested_refuted : (forall g t o, run0 (asked_with [CGroup false [CLeaf (Leaf "orders.number" (Compare t) (Some g) None)]]) = Ok o -> o_rows r0 o = filter (fun x => t (val0 "orders.number" x)) order_rows)
  /\ run0 (asked_with [CGroup false [on_customer (at_least 2)]]) = Err KeyError.
Proof. split; [|reflexivity]. intros g t o H. vm_compute in H. injection H as <-. cbn [o_rows]. vm_compute. destruct (t None); reflexivity. Qed.
(** C74: the views of the funnel are joined in the query too: an order without lines of a customer who has converted is left out, which it is not
    without the condition *)
Theorem C74_other_rows_refuted : exists o o' lk link base x, run0 (asked_with [CLeaf (done (Converted 1 2))]) = Ok o /\ run0 (asked_with []) = Ok o' /\ base0 (asked_with [CLeaf (done (Converted 1 2))]) fun0 = Ok (lk, link, base) /\
  In x (o_rows r0 o') /\ asks0 link (through_of r0 (fun a b => b - a)%Z fun0 base) (CLeaf (done (Converted 1 2))) x /\ ~ In x (o_rows r0 o).
Proof.
  do 5 eexists. exists (order "4" ann 3). split; [vm_compute; reflexivity|]. split; [vm_compute; reflexivity|]. split; [vm_compute; reflexivity|]. split; [vm_compute; tauto|]. split.
  - unfold asks0. cbn [asks l_expr done l_group]. exists "ann". split; [reflexivity|]. unfold through_of, reached. cbn [fn_window fn_steps fun0 List.length].
    set (e1 := Event (Some "ann") (Some 1%Z) (line "organic" "1" ann 1)). set (e2 := Event (Some "ann") (Some 2%Z) (line "paid" "2" ann 2)).
    split; (split; [lia|]).
    + exists [e1]. split.
      * split; [reflexivity|]. split; [intros e [<-|[]]; vm_compute; tauto|]. split; [|split; intros [|i] a b A B; try discriminate B; destruct i; discriminate B].
        intros [|i] s e A B; [|destruct i; discriminate B]. injection A as <-. injection B as <-. intros c [<-|[]]. reflexivity.
      * intros e [<-|[]]. reflexivity.
    + exists [e1; e2]. split.
      * split; [reflexivity|]. split; [intros e [<-|[<-|[]]]; vm_compute; tauto|]. split; [|split].
        -- intros [|[|i]] s e A B; [| |destruct i; discriminate B]; injection A as <-; injection B as <-; intros c [<-|[]]; reflexivity.
        -- intros [|i] a b A B; [|destruct i; discriminate B]. injection A as <-. injection B as <-. split; [exists "ann"; split; reflexivity|]. exists 1%Z, 2%Z. repeat split.
        -- intros [|i] a b A B; [|destruct i; discriminate B]. injection A as <-. injection B as <-. exists 1%Z, 2%Z. split; [reflexivity|]. split; [reflexivity|]. vm_compute. discriminate.
      * intros e [<-|[<-|[]]]; reflexivity.
  - vm_compute. intros [H|[H|[]]]; discriminate H.
Qed.
(** C74: the field that the condition names is not used: it may be any field of the query *)
Theorem C74_field_refuted : exists o o', run0 (asked_with [CLeaf (done (Converted 1 2))]) = Ok o /\ run0 (asked_with [CLeaf (Leaf "customers.region" (Converted 1 2) None (Some fun0))]) = Ok o' /\ o_rows r0 o = o_rows r0 o'.
Proof. do 2 eexists. split; [vm_compute; reflexivity|]. split; [vm_compute; reflexivity|]. reflexivity. Qed.

Print Assumptions C75_rows.
Print Assumptions C75_joined.
Print Assumptions C75_null.
Print Assumptions C75_empty_group.
Print Assumptions C75_two_refuted.
Print Assumptions C75_view_missing_refuted.
Print Assumptions C75_missing.
Print Assumptions C75_no_rows_refuted.
Print Assumptions C75_nested_refuted.
Print Assumptions C74_rows.
Print Assumptions C74_events.
Print Assumptions C74_link.
Print Assumptions C74_no_graph_refuted.
Print Assumptions C74_two.
Print Assumptions C74_without_funnel_refuted.
Print Assumptions C74_no_step_refuted.
Print Assumptions C74_having_group_refuted.
Print Assumptions C74_two_metrics_refuted.
Print Assumptions C74_other_rows_refuted.
Print Assumptions C74_field_refuted.
