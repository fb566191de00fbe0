(** C30, continued: a query made of mapped names only (resolve.py:215-303), and what a mapped name fails with. *)
From Coq Require Import Lia.
From Verif Require Import PyBase PyStr PySort PyList PyReplace Core_Model Mapping_Model Mapping_Proofs Mapping_Props.
Local Open Scope string_scope.
Local Open Scope list_scope.
Local Open Scope nat_scope.

(** the view of a name: what stands before its first dot *)
Fixpoint upto_dot (s : string) : string :=
  match s with EmptyString => EmptyString | String c r => if Ascii.eqb c "." then EmptyString else String c (upto_dot r) end.
Lemma view_upto x : view_part x = upto_dot x.
Proof.
  unfold view_part. induction x as [|c r IH]; [reflexivity|]. cbn [split_char upto_dot]. destruct (Ascii.eqb c "."); [reflexivity|].
  destruct (split_char "." r) as [|h t]; cbn in *; now rewrite <- IH.
Qed.

Lemma filter_true {A} (l : list A) : filter (fun _ => true) l = l.
Proof. induction l as [|x l IH]; [reflexivity|]. cbn. now rewrite IH. Qed.

Section Only.
  Variable get_field : string -> res mfld.
  Variable get_mapped : string -> option mapping.

  (** the fields of a mapped name, and the graphs of a field *)
  Definition fields_of (n : string) : list string := match get_mapped n with Some m => mp_fields m | None => [] end.
  Definition graphs_of (x : string) : list string := match get_field x with Ok f => fl_graphs f | Err _ => [] end.
  (** the partner of a field under another name: the first other field that can be queried with it *)
  Definition partner (x n y : string) : Prop :=
    exists pre post, fields_of n = pre ++ y :: post /\ y <> x /\ shares (graphs_of x) (graphs_of y) /\ forall z, In z pre -> z = x \/ ~ shares (graphs_of x) (graphs_of z).
  (** what a partner is worth: one for the same view, one for a join without merging *)
  Definition worth (x y : string) (k : nat) : Prop :=
    exists a b, k = a + b /\ (upto_dot x = upto_dot y /\ a = 1 \/ upto_dot x <> upto_dot y /\ a = 0) /\
      let joined := exists g, In g (graphs_of x) /\ In g (graphs_of y) /\ contains "merged_result" g = false in (joined /\ b = 1 \/ ~ joined /\ b = 0).
  (** a field fits when every other mapped name that has fields has a partner for it *)
  Inductive score (x : string) : list string -> nat -> Prop :=
  | S_nil : score x [] 0
  | S_none n l k : fields_of n = [] -> score x l k -> score x (n :: l) k
  | S_partner n l y a k : partner x n y -> worth x y a -> score x l k -> score x (n :: l) (a + k).
  Definition others (n : string) (l : list string) : list string := filter (fun z => negb (String.eqb n z)) l.

  Lemma against_spec x fs k : against x (graphs_of x) (map (fun y => (y, graphs_of y)) fs) = Some k <->
    exists y pre post, fs = pre ++ y :: post /\ y <> x /\ shares (graphs_of x) (graphs_of y) /\ (forall z, In z pre -> z = x \/ ~ shares (graphs_of x) (graphs_of z)) /\ k = pair_points x (graphs_of x) y (graphs_of y).
  Proof.
    induction fs as [|z fs IH]; cbn [map against].
    - split; [discriminate|]. intros (y & [|? pre] & post & Q & _); discriminate.
    - destruct (String.eqb_spec x z) as [->|N]; cbn [negb andb].
      + rewrite IH. split.
        * intros (y & pre & post & -> & A & B & C & D). exists y, (z :: pre), post. repeat split; auto. intros w [<-|W]; [now left|auto].
        * intros (y & [|w pre] & post & Q & A & B & C & D); [injection Q as <- <-; congruence|]. injection Q as <- ->. exists y, pre, post. repeat split; auto. intros v V. apply C. now right.
      + destruct (meets (graphs_of x) (graphs_of z)) eqn:M.
        * split.
          -- intros H. injection H as <-. exists z, [], fs. split; [reflexivity|]. split; [congruence|]. split; [now apply meets_spec|]. split; [intros ? []|reflexivity].
          -- intros (y & [|w pre] & post & Q & A & B & C & D); [injection Q as <- <-; now f_equal|]. injection Q as <- ->.
             exfalso. destruct (C z (or_introl eq_refl)) as [X|X]; [congruence|]. apply X, meets_spec, M.
        * apply meets_false in M. rewrite IH. split.
          -- intros (y & pre & post & -> & A & B & C & D). exists y, (z :: pre), post. repeat split; auto. intros w [<-|W]; [now right|auto].
          -- intros (y & [|w pre] & post & Q & A & B & C & D); [injection Q as <- <-; contradiction|]. injection Q as <- ->. exists y, pre, post. repeat split; auto. intros v V. apply C. now right.
  Qed.
  Lemma points_worth x y k : worth x y k <-> k = pair_points x (graphs_of x) y (graphs_of y).
  Proof.
    unfold pair_points. rewrite !view_upto.
    assert (J : meets (joinable_of (graphs_of x)) (joinable_of (graphs_of y)) = true <-> exists g, In g (graphs_of x) /\ In g (graphs_of y) /\ contains "merged_result" g = false).
    { rewrite meets_spec. split.
      - intros [g [A B]]. apply joinable_In in A, B. exists g. tauto.
      - intros [g [A [B C]]]. exists g. split; apply joinable_In; auto. }
    unfold worth. cbv zeta. split.
    - intros (a & b & -> & A & B). f_equal.
      + destruct A as [[Q ->]|[Q ->]]; destruct (String.eqb_spec (upto_dot x) (upto_dot y)); congruence.
      + destruct B as [[Q ->]|[Q ->]]; destruct (meets _ _) eqn:M; try reflexivity; [apply J in Q; congruence|exfalso; apply Q, J; reflexivity].
    - intros ->. eexists _, _. split; [reflexivity|]. split.
      + destruct (String.eqb_spec (upto_dot x) (upto_dot y)); auto.
      + destruct (meets _ _) eqn:M; [left; split; [now apply J|reflexivity]|right; split; [|reflexivity]]. intros Q. apply J in Q. congruence.
  Qed.

  Definition known (ml : mapped_lookup) : Prop := forall n m b, In (n, (m, b)) ml -> get_mapped n = Some m.
  Definition with_graphs (n : string) : list (string * list string) := map (fun y => (y, graphs_of y)) (fields_of n).
  Lemma check_eq ml c : known ml -> check get_field ml = Ok c ->
    c = flat_map (fun n => match fields_of n with [] => [] | _ => [(n, with_graphs n)] end) (map fst ml) /\ (forall n y, In n (map fst ml) -> In y (fields_of n) -> exists f, get_field y = Ok f).
  Proof.
    revert c. induction ml as [|[n [m b]] ml IH]; intros c K E; cbn [check] in E; [injection E as <-; split; [reflexivity|intros n y []]|].
    apply bind_ok in E as [fs [F E]]. apply bind_ok in E as [c' [C E]]. injection E as <-.
    destruct (IH c' (fun n m b I => K n m b (or_intror I)) C) as [-> Y]. assert (FO : fields_of n = mp_fields m) by (unfold fields_of; now rewrite (K n m b (or_introl eq_refl))).
    assert (G : fs = with_graphs n /\ forall y, In y (mp_fields m) -> exists f, get_field y = Ok f).
    { unfold with_graphs. rewrite FO. clear -F. revert fs F. induction (mp_fields m) as [|y l IHl]; intros fs F; cbn [mapM] in F; [injection F as <-; split; [reflexivity|intros ? []]|].
      apply bind_ok in F as [z [Z F]]. apply bind_ok in F as [zs [ZS F]]. injection F as <-. apply bind_ok in Z as [f [Y Z]]. injection Z as <-. destruct (IHl zs ZS) as [-> H].
      split; [cbn [map]; unfold graphs_of; now rewrite Y|]. intros w [<-|W]; [eauto|auto]. }
    destruct G as [-> G]. split.
    - cbn [map fst flat_map]. rewrite FO. unfold with_graphs. rewrite FO. destruct (mp_fields m); reflexivity.
    - intros k y [<-|I] J; [apply G; now rewrite <- FO|eapply Y; eassumption].
  Qed.

  Definition entries (l : list string) : checked := flat_map (fun n => match fields_of n with [] => [] | _ => [(n, with_graphs n)] end) l.
  Definition rivals (name : string) (l : list string) : nat := List.length (filter (fun n => match fields_of n with [] => false | _ => true end) (others name l)).
  Lemma tally_score name x l : forall p k, tally name x (graphs_of x) (entries l) = (p, k) -> p <= rivals name l /\ (forall k', score x (others name l) k' <-> p = rivals name l /\ k' = k).
  Proof.
    induction l as [|n l IH]; intros p k T.
    - cbn in T. injection T as <- <-. split; [cbn; lia|]. intros k'. split; [inversion 1; auto|]. intros [_ ->]. constructor.
    - unfold entries in T. cbn [flat_map] in T. fold (entries l) in T. unfold rivals, others. cbn [filter]. fold (others name l).
      destruct (fields_of n) as [|f0 fr] eqn:F.
      + cbn [app] in T. destruct (IH p k T) as [L S1]. destruct (String.eqb name n); cbn [negb filter]; [now split|]. rewrite F. split; [exact L|].
        intros k'. rewrite <- S1. split; [|intros H; now apply S_none].
        intros H. inversion H as [|? ? ? _ H'|? ? y ? ? [pre [post [Q _]]] _ _]; subst; [exact H'|]. rewrite F in Q. destruct pre; discriminate.
      + cbn [app tally] in T. destruct (tally name x (graphs_of x) (entries l)) as [p0 k0] eqn:T0. destruct (IH p0 k0 eq_refl) as [L S1].
        destruct (String.eqb name n); cbn [negb filter]; [injection T as <- <-; now split|]. rewrite F. cbn [List.length]. fold (rivals name l).
        destruct (against x (graphs_of x) (with_graphs n)) as [a|] eqn:A; injection T as <- <-.
        * split; [lia|]. apply against_spec in A as (y & pre & post & Q & N & SH & PRE & ->). intros k'. split.
          -- intros H. inversion H as [|? ? ? F' _|? ? y' a' k'' P W H']; subst; [congruence|]. apply S1 in H' as [-> ->]. split; [reflexivity|]. f_equal.
             apply points_worth in W. subst a'. destruct P as [pre' [post' [Q' [N' [SH' PRE']]]]].
             assert (E2 : y = y'); [|now subst].
             rewrite Q in Q'. clear -Q' N N' SH SH' PRE PRE'. revert pre' Q' PRE'. induction pre as [|z pre IHp]; intros [|z' pre'] Q' PRE'; cbn in Q'.
             ++ now injection Q'.
             ++ injection Q' as <- _. exfalso. destruct (PRE' y (or_introl eq_refl)); [congruence|contradiction].
             ++ injection Q' as -> _. exfalso. destruct (PRE y' (or_introl eq_refl)); [congruence|contradiction].
             ++ injection Q' as <- Q'. eapply IHp; [intros; apply PRE; now right|exact Q'|intros; apply PRE'; now right].
          -- intros [E ->]. apply S_partner with (y := y); [exists pre, post; auto|now apply points_worth|]. apply S1. split; [lia|reflexivity].
        * split; [lia|]. intros k'. split; [|lia]. intros H. exfalso. inversion H as [|? ? ? F' _|? ? y' a' k'' P W H']; subst; [congruence|].
          destruct P as [pre [post [Q [N [SH PRE]]]]]. assert (B : against x (graphs_of x) (with_graphs n) = Some (pair_points x (graphs_of x) y' (graphs_of y'))); [|congruence].
          apply against_spec. exists y', pre, post. repeat split; auto.
  Qed.
  Lemma rivals_length n l : NoDup l -> In n l -> fields_of n <> [] -> rivals n l = List.length (entries l) - 1.
  Proof.
    intros ND I F. assert (G : forall l, ~ In n l -> rivals n l = List.length (entries l)).
    { clear. induction l as [|z l IH]; intros N; [reflexivity|]. unfold rivals, others, entries. cbn [filter flat_map]. fold (others n l) (entries l). destruct (String.eqb_spec n z) as [->|]; [exfalso; apply N; now left|]. cbn [negb filter].
      destruct (fields_of z); cbn [List.length app]; fold (rivals n l); rewrite IH; auto; intros X; apply N; now right. }
    induction l as [|z l IH]; [destruct I|]. inversion ND; subst. unfold rivals, others, entries. cbn [filter flat_map]. fold (others n l) (entries l). destruct I as [->|I].
    - rewrite String.eqb_refl. cbn [negb]. fold (rivals n l). rewrite G by assumption. destruct (fields_of n); [congruence|]. cbn [app List.length]. lia.
    - destruct (String.eqb_spec n z) as [->|]; [contradiction|]. cbn [negb filter].
      destruct (fields_of z); cbn [List.length app]; fold (rivals n l); rewrite (IH H2 I); [reflexivity|].
      assert (List.length (entries l) <> 0); [|lia]. clear -I F. induction l as [|z l IH]; [destruct I|]. unfold entries. cbn [flat_map]. fold (entries l). rewrite app_length. destruct I as [->|I]; [destruct (fields_of n); [congruence|cbn; lia]|specialize (IH I); lia].
  Qed.
  Lemma items_spec l n x p : NoDup l -> In (n, (x, p)) (valid_items (entries l)) <-> In n l /\ In x (fields_of n) /\ score x (others n l) p.
  Proof.
    intros ND. unfold valid_items. rewrite in_flat_map. split.
    - intros ([n' fs] & I & J). apply in_flat_map in J as ([x' g] & K & J). cbn [fst snd] in *. destruct (tally n' x' g (entries l)) as [q k] eqn:T.
      destruct (Nat.eqb_spec q (List.length (entries l) - 1)) as [Q|]; [|destruct J]. destruct J as [J|[]]. injection J as <- <- <-.
      unfold entries in I. apply in_flat_map in I as [z [IZ I]]. destruct (fields_of z) as [|f0 fr] eqn:F; [destruct I|]. destruct I as [I|[]]. injection I as -> <-.
      unfold with_graphs in K. apply in_map_iff in K as [y [K IY]]. injection K as -> <-. split; [exact IZ|]. split; [exact IY|].
      destruct (tally_score n' x' l q k T) as [_ S1]. apply S1. split; [|reflexivity]. rewrite rivals_length; auto. rewrite F. discriminate.
    - intros [I [J H]]. exists (n, with_graphs n). assert (F : fields_of n <> []) by (intros F; rewrite F in J; destruct J). split.
      + unfold entries. apply in_flat_map. exists n. split; [exact I|]. destruct (fields_of n); [congruence|now left].
      + apply in_flat_map. exists (x, graphs_of x). split; [unfold with_graphs; apply in_map_iff; eauto|]. cbn [fst snd]. destruct (tally n x (graphs_of x) (entries l)) as [q k] eqn:T.
        destruct (tally_score n x l q k T) as [_ S1]. apply S1 in H as [-> ->]. rewrite rivals_length by auto. rewrite Nat.eqb_refl. now left.
  Qed.

  (** the better of two fields: more points, or as many and the greater name *)
  Definition at_least (x : string) (k : nat) (y : string) (j : nat) : Prop := j < k \/ j = k /\ String.leb y x = true.
  Lemma geb_spec a b : item_geb a b = true <-> at_least (fst (snd a)) (snd (snd a)) (fst (snd b)) (snd (snd b)).
  Proof.
    unfold item_geb, at_least. destruct (Nat.eqb_spec (snd (snd a)) (snd (snd b))) as [E|E].
    - split; [auto|]. intros [H|[_ H]]; [lia|exact H].
    - rewrite Nat.leb_le. split; [lia|]. intros [H|[H _]]; lia.
  Qed.
  Lemma str_total x y : String.leb x y = true \/ String.leb y x = true.
  Proof. rewrite !str_leb_spec. rewrite (String.compare_antisym y x). destruct (String.compare x y); cbn; [left|left|right]; discriminate. Qed.
  Lemma best_first l i r : isort item_geb l = i :: r -> In i l /\ forall j, In j l -> j = i \/ item_geb i j = true.
  Proof.
    intros E. split; [apply (isort_In item_geb); rewrite E; now left|]. intros j J. apply (isort_In item_geb) in J.
    assert (S1 : sorted item_geb (isort item_geb l)).
    { apply isort_sorted.
      - intros a b. rewrite !geb_spec. unfold at_least. destruct (Nat.lt_trichotomy (snd (snd a)) (snd (snd b))) as [H|[H|H]]; [right; lia| |left; lia].
        destruct (str_total (fst (snd b)) (fst (snd a))) as [K|K]; [left|right]; right; auto.
      - intros a b c. rewrite !geb_spec. unfold at_least. intros [A|[A A']] [B|[B B']]; [left; lia|left; lia|left; lia|right; split; [lia|eapply str_leb_trans; eassumption]]. }
    rewrite E in S1, J. inversion S1; subst. destruct J as [->|J]; auto.
  Qed.

  Variable R : Type.
  Variable has_group_by : R -> bool.
  Variable special : string -> bool.
  Variable n_measures : string -> res nat.
  Variable enum : list string -> list string.
  Variable idents : string -> list string.
  Notation cfields := (clause_fields has_group_by idents).
  Notation resolve := (resolve has_group_by get_field get_mapped special n_measures enum idents).
  Hypothesis ids_unmapped : forall x f, get_field x = Ok f -> get_mapped (fl_id f) = None.

  Lemma put_keys_order {V} k (v : V) d : map fst (put k v d) = if mem k (map fst d) then map fst d else map fst d ++ [k].
  Proof.
    induction d as [|[k' v'] d IH]; [reflexivity|]. cbn [put map fst mem existsb]. unfold mem in *. cbn [existsb].
    destruct (String.eqb_spec k k') as [->|N]; cbn [orb map fst]; [reflexivity|]. rewrite IH. destruct (existsb _ (map fst d)); reflexivity.
  Qed.

  (** In a query of mapped names only, one name is settled first: with one name its first field is taken; with more, a field is taken that
      has a partner under every other name, and none that has is better. All the other names are then settled for the graphs of that field:
      the first field that joins with it, else the first that merges with it. *)
  Theorem C30_only_mapped lookup_only q q' w h o :
    plain_clause R (q_where q) -> plain_clause R (q_having q) -> plain_clause R (q_order q) ->
    cfields (q_where q) = Ok w -> cfields (q_having q) = Ok h -> cfields (q_order q) = Ok o -> NoDup (q_metrics q) -> NoDup (q_dims q) ->
    resolve lookup_only q = Ok q' ->
    let all := q_metrics q ++ q_dims q ++ w ++ h ++ o in
    (forall n, In n (all ++ lookup_only) -> get_mapped n <> None) -> all ++ lookup_only <> [] ->
    exists (l : list string) (s : string -> string) (n x : string) (f : mfld),
      NoDup l /\ (forall z, In z l <-> In z (all ++ lookup_only)) /\
      q_metrics q' = map s (q_metrics q) /\ q_dims q' = map s (q_dims q) /\
      cfields (q_where q') = Ok (map s w) /\ cfields (q_having q') = Ok (map s h) /\ cfields (q_order q') = Ok (map s o) /\
      In n all /\ get_field x = Ok f /\ s n = fl_id f /\
      match l with
      | [] => False
      | [_] => exists r, fields_of n = x :: r
      | _ => In x (fields_of n) /\ exists k, score x (others n l) k /\ forall n' y j, In n' l -> In y (fields_of n') -> score y (others n' l) j -> at_least x k y j
      end /\
      forall n' m, In n' l -> n' <> n -> get_mapped n' = Some m ->
        exists g, s n' = fl_id g /\ determine get_field m (joinable_of (fl_graphs f)) (fl_graphs f) = Ok g.
  Proof.
    intros PW PH PO CW CH CO NM ND E all AM NE. unfold Mapping_Model.resolve in E. rewrite CW, CH, CO in E. cbn [bind] in E. fold all in E. cbn zeta in E.
    set (extra := filter (fun d => negb (mem d all)) lookup_only) in E. apply bind_ok in E. destruct E as [[ml objs] [LU E]].
    set (inp := map (fun n => (true, n)) all ++ map (fun n => (false, n)) extra) in LU.
    assert (INP : forall n, (exists b, In (b, n) inp) <-> In n (all ++ lookup_only)).
    { intros n. unfold inp. split.
      - intros [b I]. apply in_app_or in I as [I|I]; apply in_map_iff in I as [z [Z I]]; injection Z as <- <-; apply in_or_app; [now left|right]. unfold extra in I. apply filter_In in I. tauto.
      - intros I. destruct (mem n all) eqn:M.
        + exists true. apply in_or_app. left. apply in_map_iff. exists n. split; [reflexivity|]. now apply mem_In.
        + exists false. apply in_or_app. right. apply in_map_iff. exists n. split; [reflexivity|]. unfold extra. apply filter_In. rewrite M. split; [|reflexivity].
          apply in_app_or in I as [I|I]; [|exact I]. apply mem_In in I. congruence. }
    destruct (look_up_spec get_field get_mapped special n_measures enum idents _ _ _ _ _ LU) as [A1 [A2 [A3 [A4 _]]]]; [constructor | discriminate | discriminate |].
    assert (OB : objs = []).
    { assert (G : forall l ml o ml' o', (forall b n, In (b, n) l -> get_mapped n <> None) -> look_up get_field get_mapped l ml o = Ok (ml', o') -> o' = o).
      { clear. induction l as [|[b n] l IH]; intros ml o ml' o' H L; cbn [look_up] in L; [congruence|]. destruct (get_mapped n) eqn:G; [eapply IH; [|exact L]; intros; eapply H; right; eassumption|].
        exfalso. apply (H b n); [now left|exact G]. }
      eapply G; [|exact LU]. intros b n I. apply AM, INP. eauto. }
    subst objs.
    assert (KEY : forall n v, In (n, v) ml -> assoc n ml = Some v).
    { clear - A1. intros n v I. induction ml as [|[k u] ml IH]; [destruct I|]. cbn [assoc]. cbn [map fst] in A1. inversion A1; subst. destruct I as [I|I]; [injection I as -> ->; rewrite String.eqb_refl; reflexivity|].
      destruct (String.eqb_spec n k) as [->|]; [exfalso; apply H1; apply in_map_iff; exists (k, v); auto | apply IH; assumption]. }
    assert (GM : known ml) by (intros n m b I; exact (proj1 (A3 n m b (KEY _ _ I)))).
    assert (LK : forall z, In z (map fst ml) <-> In z (all ++ lookup_only)).
    { intros z. rewrite <- INP. split.
      - intros I. apply in_map_iff in I as [[z' [m b]] [Z I]]. cbn in Z. subst z'. destruct (A3 z m b (KEY _ _ I)) as [_ [X|X]]; [discriminate|eauto].
      - intros [b I]. specialize (A4 b z I). assert (AMZ := AM z (proj1 (INP z) (ex_intro _ b I))). destruct (get_mapped z) as [m|]; [|congruence]. destruct A4 as [b' A4]. apply assoc_In in A4. apply in_map_iff. exists (z, (m, b')). auto. }
    destruct ml as [|e0 ml0] eqn:EML.
    { exfalso. destruct (all ++ lookup_only) as [|z ?]; [congruence|]. apply (proj2 (LK z)). now left. }
    rewrite <- EML in *. unfold only_mapped in E. apply bind_ok in E. destruct E as [c [CK E]]. apply bind_ok in E. destruct E as [[n f] [NF E]]. apply bind_ok in E. destruct E as [q1 [RM E]]. cbn [fst snd] in *.
    destruct (check_eq ml c GM CK) as [EC YF]. fold (entries (map fst ml)) in EC. subst c.
    assert (IM0 : image R has_group_by idents q w h o [] q).
    { assert (ID : forall l, map (sub []) l = l) by (intros l; transitivity (map (fun x => x) l); [apply map_ext; reflexivity | apply map_id]). constructor; rewrite ID; auto. }
    assert (FIRST : exists x, get_field x = Ok f /\ In n (map fst ml) /\
      match map fst ml with [] => False | [_] => exists r, fields_of n = x :: r
      | _ => In x (fields_of n) /\ exists k, score x (others n (map fst ml)) k /\ forall n' y j, In n' (map fst ml) -> In y (fields_of n') -> score y (others n' (map fst ml)) j -> at_least x k y j end).
    { assert (SINGLE : forall n0 m0 b0, ml = [(n0, (m0, b0))] -> match mp_fields m0 with [] => Err IndexError | x :: _ => f <- get_field x ;; Ok (n0, f) end = Ok (n, f) ->
        exists x, get_field x = Ok f /\ In n (map fst ml) /\ exists r, fields_of n = x :: r).
      { intros n0 m0 b0 EM K. destruct (mp_fields m0) as [|x xs] eqn:MF; [discriminate|]. apply bind_ok in K. destruct K as [f' [F' K]]. injection K as <- <-. exists x. split; [exact F'|]. rewrite EM. split; [now left|].
        exists xs. unfold fields_of. rewrite (GM n0 m0 b0); [exact MF|]. rewrite EM. now left. }
      destruct ml0 as [|e1 ml1].
      - rewrite EML in NF. destruct e0 as [n0 [m0 b0]]. destruct (SINGLE n0 m0 b0 EML) as [x [X1 [X2 X3]]]; [destruct (valid_items _) in NF; exact NF|]. exists x. split; [exact X1|]. split; [exact X2|]. rewrite EML. exact X3.
      - assert (NF' : match valid_items (entries (map fst ml)) with [] => Err QueryError | i :: is => match isort item_geb (i :: is) with [] => Err UnboundLocal | (n, (x, _)) :: _ => f <- get_field x ;; Ok (n, f) end end = Ok (n, f)).
        { rewrite EML in NF |- *. destruct e0 as [n0 [m0 b0]]. destruct (valid_items _); exact NF. }
        destruct (valid_items (entries (map fst ml))) as [|i is] eqn:VI; [discriminate|]. destruct (isort item_geb (i :: is)) as [|[n1 [x1 p1]] t] eqn:IS; [discriminate|]. apply bind_ok in NF' as [f' [F' Q]]. injection Q as <- <-.
        destruct (best_first _ _ _ IS) as [IB BB]. rewrite <- VI in IB, BB. apply (items_spec _ _ _ _ A1) in IB as [B1 [B2 B3]].
        exists x1. split; [exact F'|]. split; [exact B1|]. assert (BEST : In x1 (fields_of n1) /\ exists k, score x1 (others n1 (map fst ml)) k /\ forall n' y j, In n' (map fst ml) -> In y (fields_of n') -> score y (others n' (map fst ml)) j -> at_least x1 k y j).
        { split; [exact B2|]. exists p1. split; [exact B3|]. intros n' y j I1 I2 I3. destruct (BB (n', (y, j))) as [X|X]; [now apply (items_spec _ _ _ _ A1)| |].
          - injection X as -> -> ->. right. split; [reflexivity|apply str_leb_refl].
          - apply geb_spec in X. exact X. }
        rewrite EML in BEST |- *. exact BEST. }
    destruct FIRST as [x [FX [INL CHO]]].
    destruct (image_step R has_group_by idents q w h o all [] q n f q1 IM0 NM ND eq_refl (fun k g H => match H with end) RM) as [IM1 [_ INA]].
    assert (GNN : get_mapped n <> None) by (apply AM, LK, INL).
    destruct (replace_rest_image R has_group_by get_field get_mapped idents ids_unmapped q w h o all [(n, fl_graphs f)] n NM ND ml [(n, f)] q1 q' E A1 GM IM1) as [s' [I1 [I2 [I3 _]]]].
    { intros k g [I|[]]. injection I as <- <-. split; [exact GNN | eapply ids_unmapped; exact FX]. }
    { intros k [I|[]]. left. symmetry. exact I. }
    { left. reflexivity. }
    exists (map fst ml), (sub ([(n, f)] ++ s')), n, x, f. destruct I1 as [J1 J2 [_ J3] [_ J4] [_ J5]].
    split; [exact A1|]. split; [exact LK|]. repeat (split; [assumption|]). split; [unfold sub; cbn [app assoc]; now rewrite String.eqb_refl|]. split; [exact CHO|].
    intros n' m IN' NN GN'. apply in_map_iff in IN' as [[z [m' b']] [Z IN']]. cbn in Z. subst z. assert (m' = m) by (specialize (GM n' m' b' IN'); congruence). subst m'.
    destruct (I3 n' m b' IN' NN) as [g0 G0]. unfold sub. cbn [app assoc]. destruct (String.eqb_spec n' n) as [->|]; [congruence|].
    destruct (assoc n' s') as [g|] eqn:AS.
    - apply assoc_In in AS. destruct (I2 n' g AS) as [m2 [b2 [u [IK [US DT]]]]]. assert (m2 = m) by (specialize (GM n' m2 b2 IK); congruence). subst m2. exists g. split; [reflexivity|].
      cbn [usable snd forallb] in US. injection US as <-. rewrite filter_true in DT. exact DT.
    - apply assoc_None in AS. exfalso. apply AS. apply in_map_iff. exists (n', g0). auto.
  Qed.

  (** With more than one mapped name and no field that has a partner under every other name the query is refused. *)
  Theorem C30_only_mapped_refused ns ml (q : query R) : known ml -> NoDup (map fst ml) -> 2 <= List.length ml ->
    (forall n y, In n (map fst ml) -> In y (fields_of n) -> exists f, get_field y = Ok f) ->
    (forall n x k, In n (map fst ml) -> In x (fields_of n) -> ~ score x (others n (map fst ml)) k) ->
    only_mapped get_field ns ml q = Err QueryError.
  Proof.
    intros K ND LE YF NS. unfold only_mapped.
    assert (C : exists c, check get_field ml = Ok c).
    { clear ND LE NS. induction ml as [|[n [m b]] ml IH]; [now exists []|]. cbn [check].
      assert (FO : fields_of n = mp_fields m) by (unfold fields_of; now rewrite (K n m b (or_introl eq_refl))).
      assert (M : exists l, mapM (fun x => f <- get_field x ;; Ok (x, fl_graphs f)) (mp_fields m) = Ok l).
      { assert (Y : forall y, In y (mp_fields m) -> exists f, get_field y = Ok f) by (intros y I; apply (YF n); [now left|now rewrite FO]). clear -Y. induction (mp_fields m) as [|y l IHl]; [now exists []|]. cbn [mapM].
        destruct (Y y (or_introl eq_refl)) as [f ->]. cbn [bind]. destruct IHl as [l' ->]; [intros; apply Y; now right|]. eexists. reflexivity. }
      destruct M as [l ->]. cbn [bind]. destruct IH as [c ->]; [intros ? ? ? ?; eapply K; right; eassumption|intros; eapply YF; [right|]; eassumption|]. eexists. reflexivity. }
    destruct C as [c C]. rewrite C. cbn [bind]. destruct (check_eq ml c K C) as [-> _]. fold (entries (map fst ml)).
    destruct (valid_items (entries (map fst ml))) as [|[n [x p]] is] eqn:V.
    - destruct ml as [|[n [m b]] [|e ml]]; cbn [List.length] in LE; try lia. reflexivity.
    - exfalso. assert (I : In (n, (x, p)) (valid_items (entries (map fst ml)))) by (rewrite V; now left). apply (items_spec _ _ _ _ ND) in I as [I1 [I2 I3]]. exact (NS n x p I1 I2 I3).
  Qed.

  (** A condition that names no field and is no group refuses the query; one on another grouping is not looked at. *)
  Theorem C30_nameless lookup_only q r c : has_group_by r = false -> q_where q = CList [RDict (R := R) None None r] \/ (cfields (q_where q) = Ok c /\ q_having q = CList [RDict None None r]) ->
    resolve lookup_only q = Err QueryError.
  Proof.
    intros H [W|[W V]]; unfold Mapping_Model.resolve; rewrite W; [|rewrite V; cbn [bind]]; cbn [clause_fields flat_map leaves app concatM leaf_name]; rewrite H; reflexivity.
  Qed.

  (** A mapped date over a metric that has no date of its own is looked for under the name None. *)
  Theorem C30_dateless o J U m (q : query R) m0 ms f0 e : special (mp_name m) = true -> q_metrics q = m0 :: ms -> assoc m0 o = Some f0 -> fl_canon f0 = None ->
    get_field ("None_" ++ mp_name m)%string = Err e -> replacement get_field special n_measures enum o J U m q = Err e.
  Proof.
    intros S1 Q A C G. unfold replacement. rewrite S1, Q. unfold from_lookup. rewrite A. cbn [bind]. rewrite C. cbn [canon_text].
    change ("None" ++ "_" ++ mp_name m)%string with ("None_" ++ mp_name m)%string. rewrite G. reflexivity.
  Qed.
End Only.
Print Assumptions C30_only_mapped.
Print Assumptions C30_only_mapped_refused.
Print Assumptions C30_nameless.
Print Assumptions C30_dateless.

(** * Cases *)

Definition om_fields : list (string * mfld) :=
  [("orders.region", MFld "orders.region" ["g0"; "merged_result_m"] None); ("visits.region", MFld "visits.region" ["g1"; "merged_result_m"] None);
   ("visits.source", MFld "visits.source" ["g1"; "merged_result_m"] None); ("orders.source", MFld "orders.source" ["g2"; "merged_result_m"] None)].
Definition om_get (x : string) : res mfld := match assoc x om_fields with Some f => Ok f | None => Err AccessDenied end.
Definition om_mappings : list (string * mapping) :=
  [("region", Mapping "region" ["orders.region"; "visits.region"]); ("source", Mapping "source" ["orders.source"; "visits.source"]); ("empty", Mapping "empty" [])].
Definition om_mapped (x : string) := assoc x om_mappings.
Definition om_resolve (q : query unit) : res (query unit) :=
  resolve (fun _ => false) om_get om_mapped (fun n => String.eqb n "date") (fun _ => Ok 0) (fun l => l) (fun _ => []) [] q.
Example C30_only_case :
  om_resolve (Query [] ["region"; "source"] CNone CNone CNone false) = Ok (Query [] ["orders.region"; "orders.source"] CNone CNone CNone false) /\
  om_resolve (Query [] ["source"; "empty"] CNone CNone CNone false) = Err QueryError /\
  om_resolve (Query [] ["region"] CNone CNone CNone false) = Ok (Query [] ["orders.region"] CNone CNone CNone false).
Proof. repeat split; vm_compute; reflexivity. Qed.
(** the points of one field: its partner is in its view and shares only the merged result *)
Example C30_only_score : score om_get om_mapped "orders.source" (others "source" ["region"; "source"; "empty"]) 1.
Proof.
  change (score om_get om_mapped "orders.source" ["region"; "empty"] (1 + 0)). apply S_partner with (y := "orders.region"); [| |apply S_none; [reflexivity|constructor]].
  - exists [], ["visits.region"]. split; [reflexivity|]. split; [discriminate|]. split; [exists "merged_result_m"; cbn; tauto|intros ? []].
  - exists 1, 0. cbn. split; [reflexivity|]. split; [left; split; reflexivity|]. right. split; [|reflexivity].
    intros [g [[<-|[<-|[]]] [[H|[H|[]]] C]]]; try discriminate H; try (vm_compute in C; discriminate C).
Qed.
(** Refuted: two mapped names are not settled by fields that join where there are such. Under each other name only the first field
    that can be queried at all is looked at: region and source of visits are in one graph, but those of orders, which can only be
    merged, are taken. *)
Theorem C30_only_joined_refuted : exists q', om_resolve (Query [] ["region"; "source"] CNone CNone CNone false) = Ok q' /\ q_dims q' = ["orders.region"; "orders.source"] /\
  (forall g, In g (graphs_of om_get "orders.region") -> In g (graphs_of om_get "orders.source") -> contains "merged_result" g = true) /\
  In "visits.region" (fields_of om_mapped "region") /\ In "visits.source" (fields_of om_mapped "source") /\
  (exists g, In g (graphs_of om_get "visits.region") /\ In g (graphs_of om_get "visits.source") /\ contains "merged_result" g = false).
Proof.
  eexists. split; [vm_compute; reflexivity|]. split; [reflexivity|]. split.
  - intros g [<-|[<-|[]]] [H|[H|[]]]; try discriminate H; reflexivity.
  - split; [cbn; tauto|]. split; [cbn; tauto|]. exists "g1". cbn. tauto.
Qed.
Print Assumptions C30_only_joined_refuted.
