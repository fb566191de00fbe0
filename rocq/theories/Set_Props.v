(** Specification and property theorems: C26. *)
From Coq Require Import Relations.
From Verif Require Import PyBase PyStr PySort PyReplace Core_Model Set_Model.
Local Open Scope string_scope.
Local Open Scope list_scope.
Local Open Scope nat_scope.

Lemma find_app {X} (p : X -> bool) l m : find p (l ++ m) = match find p l with Some x => Some x | None => find p m end.
Proof. induction l as [|x l IH]; [reflexivity|]. simpl. destruct (p x); [reflexivity | exact IH]. Qed.

Section C26.
  Variable views : list (string * list set_def).
  Variable all_fields : option string -> res (list string).
  Variable enum : list string -> list string.
  (** Python's set(...): every element once, in some order *)
  Hypothesis enum_set : forall l, NoDup (enum l) /\ forall x, In x (enum l) <-> In x l.
  Notation names := (field_names views all_fields enum).
  Notation get_set := (get_set views).

  (** ** Specification *)
  (** "-" anywhere marks an exclusion, "*" a set *)
  Definition excludes (txt : string) : bool := contains "-" txt.
  Definition starred (txt : string) : option string :=
    if contains "*" txt then Some (if contains "-" txt then replace "-" "" (replace "*" "" txt) else replace "*" "" txt) else None.
  (** The set an entry expands, if any *)
  Definition target (txt : string) : option set_def :=
    match starred txt with
    | Some n => if String.eqb n "ALL_FIELDS" then None else let '(_, v, x) := field_name_parts n in get_set x v
    | None => None
    end.
  Definition refers (s t : set_def) : Prop := exists txt, In txt (st_fields s) /\ target txt = Some t.
  (** The view of an unqualified name is the set's own *)
  Definition qualified (s : set_def) (txt : string) : option string :=
    let '(_, v, n) := field_name_parts txt in
    match v with
    | Some "" => None
    | Some w => Some (w ++ "." ++ n)%string
    | None => match st_view s with Some "" | None => None | Some w => Some (w ++ "." ++ n)%string end
    end.
  (** [mentions s txt l]: the fields the entry brings up, in order; [sub] gives the fields of other sets *)
  Definition mentions (sub : set_def -> list string -> Prop) (s : set_def) (txt : string) (l : list string) : Prop :=
    match starred txt with
    | Some n =>
        if String.eqb n "ALL_FIELDS" then all_fields (st_view s) = Ok l
        else match target txt with Some t => sub t l | None => l = [] end
    | None => exists f, qualified s (if excludes txt then replace "-" "" txt else txt) = Some f /\ l = [f]
    end.
  Definition mentioned_by sub s (keep : string -> bool) (txts : list string) (l : list string) : Prop :=
    exists ls, Forall2 (fun txt l => if keep txt then mentions sub s txt l else l = []) txts ls /\ l = List.concat ls.

  (** ** Entries *)
  Lemma view_name_qualified s txt w n e v : field_name_parts txt = (e, v, n) -> get_view_name s v = Ok w -> qualified s txt = Some (w ++ "." ++ n)%string.
  Proof.
    intros E G. unfold qualified. rewrite E. unfold get_view_name, nonempty_name in G.
    destruct v as [[|c v]|]; [discriminate G | injection G as <-; reflexivity|].
    destruct (st_view s) as [[|c u]|]; [discriminate G | injection G as <-; reflexivity | discriminate G].
  Qed.
  Lemma entry_mentions (sub : set_def -> list string -> Prop) (names_of : set_def -> res (list string)) s txt b l :
    (forall t l, names_of t = Ok l -> sub t l) ->
    entry views all_fields names_of s txt = Ok (b, l) -> b = negb (excludes txt) /\ mentions sub s txt l.
  Proof.
    intros SUB E. unfold entry in E. unfold mentions, target, starred, excludes.
    assert (FS : forall n l', from_set views all_fields names_of s n = Ok l' ->
              if String.eqb n "ALL_FIELDS" then all_fields (st_view s) = Ok l'
              else match (if String.eqb n "ALL_FIELDS" then None else let '(_, v, x) := field_name_parts n in get_set x v) with Some t => sub t l' | None => l' = [] end).
    { intros n l' F. unfold from_set in F. destruct (String.eqb n "ALL_FIELDS"); [exact F|].
      destruct (field_name_parts n) as [[e v] x]. destruct (get_set x v) as [t|]; [apply SUB; exact F | injection F as <-; reflexivity]. }
    destruct (contains "*" txt) eqn:S; cbn [andb] in E.
    - destruct (contains "-" txt) eqn:D; apply bind_ok in E; destruct E as [l' [F E]]; injection E as <- <-; (split; [reflexivity|]); apply FS; exact F.
    - destruct (contains "-" txt) eqn:D.
      + destruct (field_name_parts (replace "-" "" txt)) as [[e v] n] eqn:P. apply bind_ok in E. destruct E as [w [G E]]. injection E as <- <-.
        split; [reflexivity|]. exists (w ++ "." ++ n)%string. split; [|reflexivity]. eapply view_name_qualified; eassumption.
      + destruct (field_name_parts txt) as [[e v] n] eqn:P. apply bind_ok in E. destruct E as [w [G E]]. injection E as <- <-.
        split; [reflexivity|]. exists (w ++ "." ++ n)%string. split; [|reflexivity]. eapply view_name_qualified; eassumption.
  Qed.
  Lemma entries_mentioned (sub : set_def -> list string -> Prop) (names_of : set_def -> res (list string)) s txts es :
    (forall t l, names_of t = Ok l -> sub t l) -> mapM (entry views all_fields names_of s) txts = Ok es ->
    mentioned_by sub s (fun t => negb (excludes t)) txts (added es) /\ mentioned_by sub s excludes txts (excluded es).
  Proof.
    intros SUB. revert es. induction txts as [|t txts IH]; intros es M; cbn [mapM] in M.
    - injection M as <-. split; exists []; split; constructor.
    - apply bind_ok in M. destruct M as [[b l] [E M]]. apply bind_ok in M. destruct M as [es' [M' M]]. injection M as <-.
      destruct (IH es' M') as [[la [Fa Ea]] [lx [Fx Ex]]]. destruct (entry_mentions sub names_of s t b l SUB E) as [-> ME].
      unfold added, excluded in *. cbn [flat_map fst snd]. rewrite Ea, Ex. split.
      + exists ((if negb (excludes t) then l else []) :: la). split; [|reflexivity]. constructor; [|exact Fa]. destruct (excludes t); [reflexivity | exact ME].
      + exists ((if excludes t then l else []) :: lx). split; [|destruct (excludes t); reflexivity]. constructor; [|exact Fx]. destruct (excludes t); [exact ME | reflexivity].
  Qed.

  (** ** Order *)
  Lemma index_In x l : In x l -> index x l < List.length l.
  Proof. induction l as [|y l IH]; intros I; [destruct I|]. cbn [index List.length]. destruct (String.eqb_spec x y) as [->|N]; [lia|]. destruct I as [->|I]; [congruence | specialize (IH I); lia]. Qed.
  Lemma index_nth x l : In x l -> nth_error l (index x l) = Some x.
  Proof. induction l as [|y l IH]; intros I; [destruct I|]. cbn [index]. destruct (String.eqb_spec x y) as [->|N]; [reflexivity|]. destruct I as [->|I]; [congruence | exact (IH I)]. Qed.
  Lemma index_inj x y l : In x l -> In y l -> index x l = index y l -> x = y.
  Proof. intros X Y E. apply index_nth in X. apply index_nth in Y. rewrite E in X. congruence. Qed.
  Lemma sorted_strict (le : string -> string -> bool) l : sorted le l -> forall i j x y, nth_error l i = Some x -> nth_error l j = Some y -> i < j -> le x y = true.
  Proof.
    induction 1 as [|a l H S IH]; intros i j x y X Y L; [destruct i; discriminate|].
    destruct j as [|j]; [lia|]. destruct i as [|i]; [injection X as <-; apply H; eapply nth_error_In; exact Y | apply (IH i j); [exact X | exact Y | lia]].
  Qed.

  (** C26: membership, no repetition, order of first mention.  [sub] is the result of the inner calls. *)
  Theorem C26_members fuel s r : names fuel s = Ok r ->
    exists add ex,
      let sub t l := names (pred fuel) t = Ok l in
      mentioned_by sub s (fun t => negb (excludes t)) (st_fields s) add /\ mentioned_by sub s excludes (st_fields s) ex /\
      NoDup r /\ (forall f, In f r <-> In f add /\ ~ In f ex) /\
      (forall i j x y, nth_error r i = Some x -> nth_error r j = Some y -> i < j -> index x add < index y add).
  Proof.
    intros E. destruct fuel as [|n]; [discriminate E|]. cbn [field_names] in E. unfold names_body in E.
    apply bind_ok in E. destruct E as [es [M E]]. injection E as <-.
    destruct (entries_mentioned (fun t l => names n t = Ok l) (names n) s _ es (fun t l H => H) M) as [MA MX].
    exists (added es), (excluded es). cbn [pred]. split; [exact MA|]. split; [exact MX|].
    set (all := added es). set (ex := excluded es). destruct (enum_set (filter (fun f => negb (mem f ex)) all)) as [ND IN].
    assert (MEM : forall f, In f (isort (fun x y => Nat.leb (index x all) (index y all)) (enum (filter (fun f => negb (mem f ex)) all))) <-> In f all /\ ~ In f ex).
    { intros f. rewrite isort_In, IN, filter_In, negb_true_iff, mem_false. reflexivity. }
    assert (NDR : NoDup (isort (fun x y => Nat.leb (index x all) (index y all)) (enum (filter (fun f => negb (mem f ex)) all)))) by (apply isort_NoDup; exact ND).
    split; [exact NDR|]. split; [exact MEM|].
    intros i j x y X Y L.
    assert (SO : sorted (fun x y => Nat.leb (index x all) (index y all)) (isort (fun x y => Nat.leb (index x all) (index y all)) (enum (filter (fun f => negb (mem f ex)) all)))).
    { apply isort_sorted.
      - intros a b. destruct (Nat.leb_spec (index a all) (index b all)); [left; reflexivity | right; apply Nat.leb_le; lia].
      - intros a b c AB BC. apply Nat.leb_le in AB. apply Nat.leb_le in BC. apply Nat.leb_le. lia. }
    pose proof (sorted_strict _ _ SO i j x y X Y L) as LE. apply Nat.leb_le in LE.
    destruct (Nat.eq_dec (index x all) (index y all)) as [EQ|NE]; [|lia]. exfalso.
    pose proof (proj1 (MEM x) (nth_error_In _ _ X)) as [IX _]. pose proof (proj1 (MEM y) (nth_error_In _ _ Y)) as [IY _].
    assert (x = y) by (eapply index_inj; eassumption). subst y.
    assert (i = j) by (eapply (proj1 (NoDup_nth_error _) NDR); [apply nth_error_Some; congruence | congruence]). lia.
  Qed.

  (** A field without a view, in a set without one, is refused *)
  Theorem C26_no_view fuel s pre txt post : st_fields s = pre ++ txt :: post ->
    let named t := starred t = None /\ exists f, qualified s (if excludes t then replace "-" "" t else t) = Some f in
    (forall t, In t pre -> named t) -> starred txt = None -> qualified s (if excludes txt then replace "-" "" txt else txt) = None ->
    names (S fuel) s = Err QueryError.
  Proof.
    intros E named P S Q.
    assert (QV : forall e v n t, field_name_parts t = (e, v, n) -> match qualified s t with Some f => exists w, get_view_name s v = Ok w /\ f = (w ++ "." ++ n)%string | None => get_view_name s v = Err QueryError end).
    { intros e v n t F. unfold qualified, get_view_name, nonempty_name. rewrite F. destruct v as [[|c v]|]; [reflexivity | eauto|]. destruct (st_view s) as [[|c w]|]; [reflexivity | cbn; eauto | reflexivity]. }
    assert (EN : forall nf t, starred t = None -> match qualified s (if excludes t then replace "-" "" t else t) with Some f => exists x, entry views all_fields nf s t = Ok x | None => entry views all_fields nf s t = Err QueryError end).
    { intros nf t St. unfold starred in St. unfold entry, excludes. destruct (contains "*" t); [discriminate|]. cbn [andb]. destruct (contains "-" t).
      - destruct (field_name_parts (replace "-" "" t)) as [[e v] n] eqn:F. specialize (QV e v n _ F). destruct (qualified s (replace "-" "" t)); [destruct QV as [w [-> _]]; cbn [bind]; eauto|rewrite QV; reflexivity].
      - destruct (field_name_parts t) as [[e v] n] eqn:F. specialize (QV e v n _ F). destruct (qualified s t); [destruct QV as [w [-> _]]; cbn [bind]; eauto|rewrite QV; reflexivity]. }
    cbn [field_names]. unfold names_body. rewrite E.
    assert (M : mapM (entry views all_fields (names fuel) s) (pre ++ txt :: post) = Err QueryError).
    { clear E. induction pre as [|t pre IH]; cbn [List.app mapM].
      - specialize (EN (names fuel) txt S). rewrite Q in EN. rewrite EN. reflexivity.
      - destruct (P t (or_introl eq_refl)) as [St [f F]]. specialize (EN (names fuel) t St). rewrite F in EN. destruct EN as [x ->]. cbn [bind]. rewrite IH; [reflexivity|]. intros u U. apply P. now right. }
    rewrite M. reflexivity.
  Qed.
  (** The set a reference resolves to: one of that name, of the named view or of any view, and the first
      such; none is found only when there is none *)
  Theorem C26_lookup x v : match get_set x v with
    | Some t => st_name t = x /\ exists pre w sets post, views = pre ++ (w, sets) :: post /\ In t sets /\
                  match v with
                  | None | Some "" => forall u l z, In (u, l) pre -> In z l -> st_name z <> x
                  | Some v => v = w
                  end
    | None => forall w sets t, In (w, sets) views -> In t sets -> match v with
                  | None | Some "" => st_name t <> x
                  | Some v => v = w -> NoDup (map fst views) -> st_name t <> x end
    end.
  Proof.
    assert (HALL : match find (fun s => String.eqb (st_name s) x) (flat_map snd views) with
      | Some t => st_name t = x /\ exists pre w sets post, views = pre ++ (w, sets) :: post /\ In t sets /\ forall u l z, In (u, l) pre -> In z l -> st_name z <> x
      | None => forall w sets t, In (w, sets) views -> In t sets -> st_name t <> x end).
    { clear. induction views as [|[w sets] vs IH]; cbn [flat_map find]; [intros w sets t []|]. cbn [snd]. rewrite find_app.
      destruct (find _ sets) as [t|] eqn:F.
      - apply find_some in F. destruct F as [I E]. apply String.eqb_eq in E. split; [exact E|]. exists [], w, sets, vs. split; [reflexivity|]. split; [exact I|]. intros u l z [].
      - pose proof (find_none _ _ F) as N. destruct (find _ (flat_map snd vs)) as [t|].
        + destruct IH as [E [pre [w' [sets' [post [-> [I P]]]]]]]. split; [exact E|]. exists ((w, sets) :: pre), w', sets', post. split; [reflexivity|]. split; [exact I|].
          intros u l z [H|H] Z; [injection H as <- <-; apply String.eqb_neq; apply N; exact Z | eapply P; eassumption].
        + intros u l z [H|H] Z; [injection H as <- <-; apply String.eqb_neq; apply N; exact Z | eapply IH; eassumption]. }
    unfold Set_Model.get_set, project_sets, nonempty_name. destruct v as [v|]; [|exact HALL].
    destruct v as [|c v]; [exact HALL|]. clear HALL. set (v' := String c v).
    destruct (assoc v' views) as [sets|] eqn:A.
    - apply assoc_split in A. destruct A as [pre [post [E N]]].
      destruct (find _ sets) as [t|] eqn:F.
      + apply find_some in F. destruct F as [I X]. apply String.eqb_eq in X. split; [exact X|]. exists pre, v', sets, post. split; [exact E|]. split; [exact I | reflexivity].
      + intros w l t IN T -> ND. assert (l = sets).
        { rewrite E in ND, IN. rewrite map_app in ND. cbn [map fst] in ND. apply NoDup_remove in ND. destruct ND as [_ ND].
          apply in_app_iff in IN. destruct IN as [IN|[IN|IN]]; [|congruence|]; exfalso; apply ND; apply in_app_iff; [left|right]; apply (in_map fst) in IN; exact IN. }
        subst l. apply String.eqb_neq. apply (find_none _ _ F _ T).
    - intros w l t IN T -> _. exfalso. revert IN A. clear. induction views as [|[k a] vs IH]; [intros []|]. cbn [assoc]. intros [H|H] A.
      + injection H as -> ->. rewrite String.eqb_refl in A. discriminate A.
      + destruct (String.eqb w k); [discriminate A | exact (IH H A)].
  Qed.

  (** ** Termination *)
  Hypothesis all_fields_terminates : forall v, all_fields v <> Err RecursionError.
  Lemma entry_agree (f g : set_def -> res (list string)) s txt : (forall t, target txt = Some t -> f t = g t) ->
    entry views all_fields f s txt = entry views all_fields g s txt.
  Proof.
    intros H. unfold entry. unfold target, starred in H.
    assert (FS : forall n, (forall t, (if String.eqb n "ALL_FIELDS" then None else let '(_, v, x) := field_name_parts n in get_set x v) = Some t -> f t = g t) ->
              from_set views all_fields f s n = from_set views all_fields g s n).
    { intros n K. unfold from_set. destruct (String.eqb n "ALL_FIELDS"); [reflexivity|]. destruct (field_name_parts n) as [[e v] x].
      destruct (get_set x v) as [t|]; [apply K; reflexivity | reflexivity]. }
    destruct (contains "*" txt); cbn [andb]; [|reflexivity].
    destruct (contains "-" txt); rewrite FS by exact H; reflexivity.
  Qed.
  Lemma mapM_agree {X Y} (f g : X -> res Y) l : (forall x, In x l -> f x = g x) -> mapM f l = mapM g l.
  Proof. induction l as [|x l IH]; intros H; [reflexivity|]. cbn [mapM]. rewrite (H x (or_introl eq_refl)), IH; [reflexivity|]. intros y I. apply H. right. exact I. Qed.
  Lemma entry_not_rec (f : set_def -> res (list string)) s txt : (forall t, target txt = Some t -> f t <> Err RecursionError) ->
    entry views all_fields f s txt <> Err RecursionError.
  Proof.
    intros H. unfold entry. unfold target, starred in H.
    assert (FS : forall n, (forall t, (if String.eqb n "ALL_FIELDS" then None else let '(_, v, x) := field_name_parts n in get_set x v) = Some t -> f t <> Err RecursionError) ->
              from_set views all_fields f s n <> Err RecursionError).
    { intros n K. unfold from_set. destruct (String.eqb n "ALL_FIELDS"); [apply all_fields_terminates|]. destruct (field_name_parts n) as [[e v] x].
      destruct (get_set x v) as [t|]; [apply K; reflexivity | discriminate]. }
    assert (GV : forall v, get_view_name s v <> Err RecursionError).
    { intros [[|c v]|]; simpl; try discriminate. destruct (nonempty_name (st_view s)); discriminate. }
    destruct (contains "*" txt); cbn [andb].
    - destruct (contains "-" txt); specialize (FS _ H); destruct (from_set views all_fields f s _) as [l|e]; cbn [bind]; try discriminate; congruence.
    - destruct (contains "-" txt); destruct (field_name_parts _) as [[e v] n]; specialize (GV v); destruct (get_view_name s v) as [w|e']; cbn [bind]; try discriminate; congruence.
  Qed.
  Lemma mapM_not_rec {X Y} (f : X -> res Y) l : (forall x, In x l -> f x <> Err RecursionError) -> mapM f l <> Err RecursionError.
  Proof.
    induction l as [|x l IH]; intros H; [discriminate|]. cbn [mapM]. pose proof (H x (or_introl eq_refl)) as Hx.
    destruct (f x) as [y|e]; cbn [bind]; [|congruence]. specialize (IH (fun z I => H z (or_intror I))).
    destruct (mapM f l) as [ys|e]; cbn [bind]; [discriminate | congruence].
  Qed.

  (** References without an infinite descent: the expansion ends and does not depend on the stack left *)
  Theorem C26_acyclic_terminates s : Acc (fun t u => refers u t) s ->
    exists n, forall m, n <= m -> names m s = names n s /\ names m s <> Err RecursionError.
  Proof.
    induction 1 as [s _ IH].
    assert (H : exists n, forall txt t, In txt (st_fields s) -> target txt = Some t -> forall m, n <= m -> names m t = names n t /\ names m t <> Err RecursionError).
    { assert (K : forall txts, (forall txt, In txt txts -> In txt (st_fields s)) ->
                exists n, forall txt t, In txt txts -> target txt = Some t -> forall m, n <= m -> names m t = names n t /\ names m t <> Err RecursionError).
      { induction txts as [|x txts IHt]; intros SUBS.
        - exists 0. intros txt t [].
        - destruct IHt as [n1 H1]; [intros y I; apply SUBS; right; exact I|].
          destruct (target x) as [t0|] eqn:T0.
          + destruct (IH t0) as [n2 H2]; [exists x; split; [apply SUBS; left; reflexivity | exact T0]|].
            exists (n1 + n2). intros txt t I T m L. destruct I as [<-|I].
            * rewrite T0 in T. injection T as <-. destruct (H2 m ltac:(lia)) as [E N]. destruct (H2 (n1 + n2) ltac:(lia)) as [E' _]. rewrite E, E'. rewrite E in N. auto.
            * destruct (H1 txt t I T m ltac:(lia)) as [E N]. destruct (H1 txt t I T (n1 + n2) ltac:(lia)) as [E' _]. rewrite E, E'. rewrite E in N. auto.
          + exists n1. intros txt t I T m L. destruct I as [<-|I]; [congruence | apply (H1 txt t I T m L)]. }
      apply (K (st_fields s)). auto. }
    destruct H as [n H]. exists (S n). intros [|m] L; [lia|]. cbn [field_names]. unfold names_body.
    rewrite (mapM_agree (entry views all_fields (names m) s) (entry views all_fields (names n) s)).
    2:{ intros txt I. apply entry_agree. intros t T. apply (H txt t I T m). lia. }
    split; [reflexivity|].
    assert (NR : mapM (entry views all_fields (names n) s) (st_fields s) <> Err RecursionError).
    { apply mapM_not_rec. intros txt I. apply entry_not_rec. intros t T. apply (H txt t I T n). lia. }
    destruct (mapM _ (st_fields s)) as [es|e]; cbn [bind]; [discriminate | congruence].
  Qed.
  Lemma tc_step c d : clos_trans _ refers c d -> exists t, refers c t /\ clos_refl_trans _ refers t d.
  Proof.
    induction 1 as [c d H|c d e _ [t [CT TD]] H _]; [exists d; split; [exact H | apply rt_refl]|].
    exists t. split; [exact CT|]. eapply rt_trans; [exact TD|]. clear - H. induction H; [apply rt_step; assumption | eapply rt_trans; eassumption].
  Qed.
  (** A set from which a cycle of references is reached never yields fields, whatever the stack *)
  Theorem C26_cyclic_never s c : clos_refl_trans _ refers s c -> clos_trans _ refers c c -> forall fuel r, names fuel s <> Ok r.
  Proof.
    intros SC CC fuel. assert (P : exists c, clos_refl_trans _ refers s c /\ clos_trans _ refers c c) by (exists c; auto). clear SC CC c. revert s P.
    induction fuel as [|n IH]; intros s [c [SC CC]] r E; [discriminate E|].
    assert (T : exists t, refers s t /\ exists c, clos_refl_trans _ refers t c /\ clos_trans _ refers c c).
    { apply clos_rt_rt1n in SC. destruct SC as [|t c ST TC].
      - destruct (tc_step _ _ CC) as [t [ST TC]]. exists t. split; [exact ST|]. exists s. split; [exact TC | exact CC].
      - exists t. split; [exact ST|]. exists c. split; [apply clos_rt1n_rt; exact TC | exact CC]. }
    destruct T as [t [[txt [I TT]] PT]]. cbn [field_names] in E. unfold names_body in E. apply bind_ok in E. destruct E as [es [M _]].
    assert (O : exists y, entry views all_fields (names n) s txt = Ok y).
    { clear - M I. revert es M. induction (st_fields s) as [|x l IHl]; intros es M; [destruct I|]. cbn [mapM] in M.
      apply bind_ok in M. destruct M as [y [E M]]. apply bind_ok in M. destruct M as [ys [M _]].
      destruct I as [->|I]; [exists y; exact E | exact (IHl I ys M)]. }
    destruct O as [[b l] O]. apply (entry_mentions (fun t l => names n t = Ok l)) in O; [|auto]. destruct O as [_ MN].
    unfold mentions in MN. rewrite TT in MN. unfold target in TT. destruct (starred txt) as [x|]; [|discriminate TT].
    destruct (String.eqb x "ALL_FIELDS"); [discriminate TT|]. exact (IH t PT l MN).
  Qed.
End C26.
Print Assumptions C26_no_view.
Print Assumptions C26_members.
Print Assumptions C26_lookup.
Print Assumptions C26_acyclic_terminates.
Print Assumptions C26_cyclic_never.

(** Case: a set built from another, minus a field, plus a repeated one *)
Definition ex_sets : list (string * list set_def) :=
  [("orders", [SetDef "small" (Some "orders") ["id"; "status"]; SetDef "big" (Some "orders") ["total"; "small*"; "-status"; "customers.name"; "total"]]);
   ("customers", [SetDef "loop" (Some "customers") ["loop*"]; SetDef "small" (Some "customers") ["email"]; SetDef "mine" (Some "customers") ["small*"]])].
Example C26_case :
  field_names ex_sets (fun _ => Ok []) dedup 3 (SetDef "big" (Some "orders") ["total"; "small*"; "-status"; "customers.name"; "total"]) =
    Ok ["orders.total"; "orders.id"; "customers.name"] /\
  refers ex_sets (SetDef "loop" (Some "customers") ["loop*"]) (SetDef "loop" (Some "customers") ["loop*"]).
Proof. split; [vm_compute; reflexivity|]. exists "loop*". split; [left; reflexivity | vm_compute; reflexivity]. Qed.
(** An unqualified set name is looked for in the whole project: "mine" of customers expands the set of
    orders, although customers has a set of that name *)
Theorem C26_unqualified_set_of_other_view_refuted :
  exists s, In s (snd (nth 1 ex_sets ("", []))) /\ st_fields s = ["small*"] /\
    In "email" (flat_map st_fields (filter (fun t => String.eqb (st_name t) "small") (snd (nth 1 ex_sets ("", []))))) /\
    field_names ex_sets (fun _ => Ok []) dedup 3 s = Ok ["orders.id"; "orders.status"].
Proof.
  exists (SetDef "mine" (Some "customers") ["small*"]). split; [right; right; left; reflexivity|]. split; [reflexivity|]. split; [vm_compute; left; reflexivity | vm_compute; reflexivity].
Qed.
Print Assumptions C26_unqualified_set_of_other_view_refuted.
