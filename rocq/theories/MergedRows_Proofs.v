(** Lemmas for MergedRows_Props. *)
From Verif Require Import PyBase PyStr PySort Merged_Model MergedRows_Spec.
From Coq Require Import ZArith Lia.
Local Open Scope string_scope.
Local Open Scope list_scope.
Local Open Scope nat_scope.

Lemma key_eqb_eq a : forall b, key_eqb a b = true <-> a = b.
Proof.
  induction a as [|x a IH]; intros [|y b]; simpl; try (split; intros H; congruence).
  - destruct x; split; intros H; discriminate.
  - destruct x as [x|], y as [y|]; try (split; intros H; congruence).
    + rewrite andb_true_iff, Z.eqb_eq, IH. split; [intros [-> ->]; reflexivity|]. intros E. injection E. auto.
    + rewrite IH. split; [intros ->; reflexivity|]. intros E. injection E. auto.
Qed.
Lemma key_eqb_sym a b : key_eqb a b = key_eqb b a.
Proof.
  destruct (key_eqb a b) eqn:E, (key_eqb b a) eqn:F; try reflexivity.
  - apply key_eqb_eq in E. subst. rewrite (proj2 (key_eqb_eq b b) eq_refl) in F. discriminate.
  - apply key_eqb_eq in F. subst. rewrite (proj2 (key_eqb_eq a a) eq_refl) in E. discriminate.
Qed.
Lemma key_eqb_false a b : key_eqb a b = false <-> a <> b.
Proof.
  destruct (key_eqb a b) eqn:E.
  - apply key_eqb_eq in E. split; [discriminate|congruence].
  - split; [|reflexivity]. intros _ F. apply key_eqb_eq in F. congruence.
Qed.
Lemma key_eqb_refl a : key_eqb a a = true.
Proof. apply key_eqb_eq; reflexivity. Qed.

(** A join condition between the dimension columns compares the two keys. *)
Lemma eq_pairs_ok c h0 h a : forall b, List.length a = List.length b ->
  exists l, eq_pairs c h0 h a b = Ok l
    /\ (forall (j : jrow) (r0 r : row), assoc h0 j = Some r0 -> assoc h j = Some r ->
          nonnull (map (fun f => r0 (mc_alias f)) a) ->
          on_holds (Some l) j = key_eqb (map (fun f => r0 (mc_alias f)) a) (map (fun f => r (mc_alias f)) b))
    /\ (forall j : jrow, assoc h0 j = None -> a <> [] -> on_holds (Some l) j = false).
Proof.
  induction a as [|x a IH]; intros [|y b] L; simpl in L; try discriminate.
  - exists []. split; [reflexivity|]. split; [intros; reflexivity|]. intros j _ N. congruence.
  - injection L as L. destruct (IH b L) as (l & E & H1 & H2). simpl. rewrite E. cbn [bind].
    eexists. split; [reflexivity|]. split.
    + intros j r0 r A0 A NN. simpl. unfold col_val. rewrite A0, A.
      assert (NN' : nonnull (map (fun f => r0 (mc_alias f)) a)) by (intros v I; apply NN; right; exact I).
      specialize (H1 j r0 r A0 A NN'). simpl in H1. rewrite H1.
      destruct (r0 (mc_alias x)) as [v|] eqn:V.
      * destruct (r (mc_alias y)); reflexivity.
      * exfalso. apply (NN None); [left; reflexivity|reflexivity].
    + intros j A0 _. simpl. unfold col_val. rewrite A0. reflexivity.
Qed.

Lemma assoc_app_l {B} k (a b : list (string * B)) v : assoc k a = Some v -> assoc k (a ++ b) = Some v.
Proof.
  induction a as [|[k' v'] a IH]; simpl; [discriminate|]. destruct (String.eqb k k'); auto.
Qed.
Lemma assoc_app_r {B} k (a b : list (string * B)) : assoc k a = None -> assoc k (a ++ b) = assoc k b.
Proof.
  induction a as [|[k' v'] a IH]; simpl; [reflexivity|]. destruct (String.eqb k k'); [discriminate|auto].
Qed.

Lemma existsb_false {A} (f : A -> bool) l : existsb f l = false <-> forall x, In x l -> f x = false.
Proof.
  induction l as [|x l IH]; simpl; [split; [intros _ ? []|reflexivity]|]. rewrite orb_false_iff, IH. split.
  - intros [H1 H2] y [<-|I]; auto.
  - intros H. split; [apply H; left; reflexivity|intros y I; apply H; right; exact I].
Qed.

Section Joined.
  Variable c : mconf.
  Variable tab : string -> list row.
  Variables (h0 : string) (n : nat).
  Let dims h := match assoc h (mf_dims c) with Some l => l | None => [] end.
  Let key := key_of dims.
  Hypothesis n_pos : n > 0.

  Definition partners (h : string) (k : list (option Z)) : list row :=
    filter (fun r => key_eqb (key h r) k) (tab h).
  Definition base_row (hs : list string) (r0 : row) : jrow :=
    (h0, r0) :: flat_map (fun h => map (pair h) (partners h (key h0 r0))) hs.
  Definition lone (h : string) : list row :=
    filter (fun r => negb (existsb (fun r0 => key_eqb (key h r) (key h0 r0)) (tab h0))) (tab h).
  Definition expected (hs : list string) : list jrow :=
    map (base_row hs) (tab h0) ++ flat_map (fun h => map (fun r => [(h, r)]) (lone h)) hs.

  Definition good (h : string) : Prop :=
    assoc h (mf_dims c) <> None /\ List.length (dims h) = n
    /\ NoDup (map (key h) (tab h)) /\ forall r, In r (tab h) -> nonnull (key h r).

  Hypothesis good0 : good h0.

  Lemma dims_ok h : good h -> dims_of c h = Ok (dims h).
  Proof. intros [G _]. unfold dims_of, dims. destruct (assoc h (mf_dims c)); [reflexivity|congruence]. Qed.

  Lemma no_dims_false : no_dimensions c = false.
  Proof.
    unfold no_dimensions. destruct (forallb _ (mf_dims c)) eqn:E; [|reflexivity]. exfalso.
    rewrite forallb_forall in E. destruct good0 as [G [L _]]. unfold dims in L.
    destruct (assoc h0 (mf_dims c)) as [l|] eqn:A; [|congruence].
    specialize (E _ (assoc_In _ _ _ A)). simpl in E. destruct l; [simpl in L; lia|discriminate].
  Qed.

  Lemma join_one_ok h : good h -> h <> h0 ->
    exists on, join_one c h0 h = Ok (MOuter h on)
      /\ (forall (j : jrow) (r0 r : row), assoc h0 j = Some r0 -> assoc h j = None -> In r0 (tab h0) ->
            on_holds on (j ++ [(h, r)]) = key_eqb (key h r) (key h0 r0))
      /\ (forall j r, assoc h0 j = None -> on_holds on (j ++ [(h, r)]) = false).
  Proof.
    intros G NE. unfold join_one, join_criteria. rewrite no_dims_false, andb_false_r.
    rewrite (dims_ok _ good0). cbn [bind].
    destruct (dims h0) as [|d0 ds] eqn:D0; [destruct good0 as (_ & L & _); rewrite D0 in L; simpl in L; lia|].
    rewrite <- D0 in *. rewrite (dims_ok _ G). cbn [bind].
    destruct (eq_pairs_ok c h0 h (dims h0) (dims h)) as (l & E & H1 & H2).
    { destruct good0 as (_ & -> & _). destruct G as (_ & -> & _). reflexivity. }
    rewrite E. cbn [bind]. exists (Some l). split; [reflexivity|]. split.
    - intros j r0 r A0 A I0. rewrite (H1 (j ++ [(h, r)]) r0 r).
      + rewrite key_eqb_sym. reflexivity.
      + apply assoc_app_l; exact A0.
      + rewrite (assoc_app_r h j) by exact A. simpl. rewrite String.eqb_refl. reflexivity.
      + destruct good0 as (_ & _ & _ & NN). apply (NN r0 I0).
    - intros j r A0. apply H2; [|rewrite D0; discriminate].
      rewrite (assoc_app_r h0 j) by exact A0. simpl.
      destruct (String.eqb h0 h) eqn:X; [|reflexivity]. apply String.eqb_eq in X. congruence.
  Qed.

  Lemma partners_le1 h k : good h -> partners h k = [] \/ exists r, partners h k = [r].
  Proof.
    intros (_ & _ & ND & _). unfold partners.
    induction (tab h) as [|r l IH]; [left; reflexivity|]. simpl in *. inversion ND as [|? ? N ND']; subst.
    destruct (IH ND') as [F|[r' F]].
    - destruct (key_eqb (key h r) k); [right; exists r; rewrite F; reflexivity|left; exact F].
    - destruct (key_eqb (key h r) k) eqn:K; [|right; exists r'; exact F]. exfalso. apply N.
      assert (I : In r' (filter (fun r0 => key_eqb (key h r0) k) l)) by (rewrite F; left; reflexivity).
      apply filter_In in I. destruct I as [I K']. apply key_eqb_eq in K, K'. rewrite K, <- K'.
      apply in_map. exact I.
  Qed.

  Lemma base_row_assoc0 hs r0 : assoc h0 (base_row hs r0) = Some r0.
  Proof. unfold base_row. simpl. rewrite String.eqb_refl. reflexivity. Qed.
  Lemma base_row_assoc hs r0 h : h <> h0 -> ~ In h hs -> assoc h (base_row hs r0) = None.
  Proof.
    intros NE NI. apply assoc_None. unfold base_row. simpl. intros [E|I]; [congruence|]. apply NI.
    apply in_map_iff in I. destruct I as [[h' r] [<- I]]. apply in_flat_map in I.
    destruct I as [h'' [I1 I2]]. apply in_map_iff in I2. destruct I2 as [r' [E _]]. injection E as -> _. exact I1.
  Qed.

  Lemma filter_ext_in' {A} (f g : A -> bool) l : (forall x, In x l -> f x = g x) -> filter f l = filter g l.
  Proof. apply filter_ext_in. Qed.

  Lemma flat_map_one {A} (l : list A) : flat_map (fun x => [x]) l = l.
  Proof. induction l; simpl; congruence. Qed.

  Lemma flat_map_ext_in' {A B} (f g : A -> list B) l : (forall x, In x l -> f x = g x) -> flat_map f l = flat_map g l.
  Proof.
    induction l as [|x l IH]; simpl; intros H; [reflexivity|]. rewrite (H x (or_introl eq_refl)).
    rewrite IH; [reflexivity|]. intros y I. apply H. right; exact I.
  Qed.

  Lemma full_join_step hs h on :
    good h -> h <> h0 -> ~ In h hs -> ~ In h0 hs ->
    (forall (j : jrow) (r0 r : row), assoc h0 j = Some r0 -> assoc h j = None -> In r0 (tab h0) ->
            on_holds on (j ++ [(h, r)]) = key_eqb (key h r) (key h0 r0)) ->
    (forall j r, assoc h0 j = None -> on_holds on (j ++ [(h, r)]) = false) ->
    full_join tab on h (expected hs) = expected (hs ++ [h]).
  Proof.
    intros G NE NI NI0 H1 H2. unfold full_join, expected.
    assert (LN : forall j, In j (flat_map (fun h' => map (fun r => [(h', r)]) (lone h')) hs) -> assoc h0 j = None).
    { intros j I. apply in_flat_map in I. destruct I as [h' [I1 I2]]. apply in_map_iff in I2.
      destruct I2 as [r [<- _]]. simpl. destruct (String.eqb h0 h') eqn:X; [|reflexivity].
      apply String.eqb_eq in X. subst. contradiction. }
    rewrite flat_map_app, <- app_assoc. f_equal.
    - rewrite (flat_map_concat_map _ (map _ _)), map_map, <- flat_map_concat_map.
      rewrite <- (flat_map_one (map (base_row (hs ++ [h])) (tab h0))).
      rewrite (flat_map_concat_map (fun x => [x])), map_map, <- flat_map_concat_map.
      apply flat_map_ext_in'. intros r0 I0.
      assert (P : filter (fun r => on_holds on (base_row hs r0 ++ [(h, r)])) (tab h) = partners h (key h0 r0)).
      { unfold partners. apply filter_ext. intros r. apply H1; [apply base_row_assoc0|apply base_row_assoc; assumption|exact I0]. }
      rewrite P. unfold base_row at 3. rewrite flat_map_app. simpl. rewrite app_nil_r.
      destruct (partners_le1 h (key h0 r0) G) as [->|[r ->]]; simpl.
      + rewrite app_nil_r. reflexivity.
      + reflexivity.
    - rewrite flat_map_app. simpl. rewrite app_nil_r. f_equal.
      + rewrite <- (flat_map_one (flat_map (fun h1 => map (fun r => [(h1, r)]) (lone h1)) hs)) at 2.
        apply flat_map_ext_in'. intros j I.
        assert (F : filter (fun r => on_holds on (j ++ [(h, r)])) (tab h) = []).
        { apply filter_nil. intros r _. apply H2. apply LN. exact I. }
        rewrite F. reflexivity.
      + f_equal. unfold lone. apply filter_ext. intros r. f_equal. rewrite existsb_app.
        rewrite (proj2 (existsb_false _ (flat_map _ hs))).
        * rewrite orb_false_r. clear LN. 
          assert (X : forall l, (forall r0, In r0 l -> In r0 (tab h0)) ->
             existsb (fun j => on_holds on (j ++ [(h, r)])) (map (base_row hs) l)
             = existsb (fun r0 => key_eqb (key h r) (key h0 r0)) l).
          { induction l as [|r0 l IH]; simpl; intros S; [reflexivity|]. rewrite IH by (intros x I; apply S; right; exact I).
            f_equal. apply (H1 (base_row hs r0)); [apply base_row_assoc0|apply base_row_assoc; assumption|apply S; left; reflexivity]. }
          apply X. auto.
        * intros j I. apply H2. apply LN. exact I.
  Qed.

  Lemma joins_rows hs : forall ps,
    (forall h, In h hs -> good h) -> NoDup (h0 :: ps ++ hs) ->
    exists js, mapM (join_one c h0) hs = Ok js
      /\ fold_left (step_join tab) js (expected ps) = expected (ps ++ hs).
  Proof.
    induction hs as [|h hs IH]; intros ps G ND.
    - exists []. rewrite app_nil_r. split; reflexivity.
    - assert (NE : h <> h0).
      { intros ->. inversion ND as [|? ? N _]. apply N. apply in_or_app. right. left. reflexivity. }
      assert (NI : ~ In h ps).
      { inversion ND as [|? ? _ ND']. apply NoDup_remove_2 in ND'. intros I. apply ND'. apply in_or_app. left. exact I. }
      assert (NI0 : ~ In h0 ps).
      { inversion ND as [|? ? N _]. intros I. apply N. apply in_or_app. left. exact I. }
      destruct (join_one_ok h (G h (or_introl eq_refl)) NE) as (on & E & H1 & H2).
      destruct (IH (ps ++ [h])) as (js & E2 & F).
      + intros x I. apply G. right. exact I.
      + rewrite <- app_assoc. exact ND.
      + exists (MOuter h on :: js). simpl. rewrite E. cbn [bind]. rewrite E2. cbn [bind].
        split; [reflexivity|]. simpl.
        rewrite (full_join_step ps h on); auto; [|apply G; left; reflexivity].
        rewrite F. rewrite <- app_assoc. reflexivity.
  Qed.

  Lemma build_rows hs : mf_hashes c = h0 :: hs -> (forall h, In h hs -> good h) -> NoDup (h0 :: hs) ->
    exists js, build_from c = Ok js /\ rows_of tab js = expected hs.
  Proof.
    intros H G ND. unfold build_from. rewrite H. destruct (joins_rows hs [] G ND) as (js & E & F).
    rewrite E. cbn [bind]. eexists. split; [reflexivity|]. unfold rows_of. simpl.
    change (expected hs) with (expected ([] ++ hs)). rewrite <- F. f_equal. unfold expected. simpl. rewrite app_nil_r. apply map_ext. intros r. reflexivity.
  Qed.

  (** ** Rows for one combination of dimension values *)
  Lemma key_in_base hs r0 j : j = base_row hs r0 ->
    forall h r, In (h, r) j -> key h r = key h0 r0.
  Proof.
    intros -> h r [E|I]; [injection E as <- <-; reflexivity|]. apply in_flat_map in I.
    destruct I as [h' [_ I]]. apply in_map_iff in I. destruct I as [r' [E I]]. injection E as -> ->.
    unfold partners in I. apply filter_In in I. apply key_eqb_eq. exact (proj2 I).
  Qed.
  Lemma base_row_for hs r0 k : for_key dims k (base_row hs r0) = key_eqb (key h0 r0) k.
  Proof.
    destruct (key_eqb (key h0 r0) k) eqn:K.
    - apply forallb_forall. intros [h r] I. simpl. rewrite (key_in_base hs r0 _ eq_refl h r I : key_of dims h r = _).
      exact K.
    - unfold for_key, base_row. simpl. unfold key in K. rewrite K. reflexivity.
  Qed.
  Lemma filter_map_comm {A B} (f : B -> bool) (g : A -> B) l :
    filter f (map g l) = map g (filter (fun x => f (g x)) l).
  Proof. induction l as [|x l IH]; simpl; [reflexivity|]. destruct (f (g x)); simpl; rewrite IH; reflexivity. Qed.
  Lemma filter_flat_map {A B} (f : B -> bool) (g : A -> list B) l :
    filter f (flat_map g l) = flat_map (fun x => filter f (g x)) l.
  Proof. induction l as [|x l IH]; simpl; [reflexivity|]. rewrite filter_app, IH. reflexivity. Qed.

  Lemma expected_for hs k :
    filter (for_key dims k) (expected hs) =
      map (base_row hs) (partners h0 k)
      ++ flat_map (fun h => map (fun r => [(h, r)])
           (filter (fun _ => negb (existsb (fun r0 => key_eqb k (key h0 r0)) (tab h0))) (partners h k))) hs.
  Proof.
    unfold expected. rewrite filter_app. f_equal.
    - rewrite filter_map_comm. f_equal. unfold partners. apply filter_ext. intros r. apply base_row_for.
    - rewrite filter_flat_map. apply flat_map_ext_in'. intros h _. rewrite filter_map_comm. f_equal.
      unfold lone, partners.
      rewrite (filter_ext (fun x => for_key dims k [(h, x)]) (fun x => key_eqb (key h x) k)).
      2: { intros x. unfold for_key. simpl. apply andb_true_r. }
      clear. induction (tab h) as [|r l IH]; simpl; [reflexivity|].
      destruct (key_eqb (key h r) k) eqn:K.
      + simpl. assert (E : key h r = k) by (apply key_eqb_eq; exact K). rewrite E.
        destruct (negb (existsb (fun r0 => key_eqb k (key h0 r0)) (tab h0))) eqn:NB.
        * simpl. rewrite K, IH. reflexivity.
        * exact IH.
      + destruct (negb (existsb (fun r0 => key_eqb (key h r) (key h0 r0)) (tab h0))); simpl; [rewrite K|]; exact IH.
  Qed.
End Joined.

(** ** The dimension expressions *)
Fixpoint columns (e : sqle) : list (string * string) :=
  match e with SCol h c => [(h, c)] | SIfNull a b => columns a ++ columns b end.

Lemma eval_none j e : (forall p, In p (columns e) -> col_val j (fst p) (snd p) = None) -> eval j e = None.
Proof.
  induction e as [h c|a IHa b IHb]; simpl; intros H; [apply (H (h, c)); left; reflexivity|].
  rewrite IHa by (intros p I; apply H, in_or_app; left; exact I).
  apply IHb. intros p I; apply H, in_or_app; right; exact I.
Qed.
Lemma eval_some j e v :
  (forall p, In p (columns e) -> col_val j (fst p) (snd p) = None \/ col_val j (fst p) (snd p) = Some v) ->
  (exists p, In p (columns e) /\ col_val j (fst p) (snd p) = Some v) ->
  eval j e = Some v.
Proof.
  induction e as [h c|a IHa b IHb]; simpl; intros H (p & I & V).
  - destruct I as [<-|[]]. exact V.
  - assert (Ha : forall q, In q (columns a) -> col_val j (fst q) (snd q) = None \/ col_val j (fst q) (snd q) = Some v)
      by (intros q Iq; apply H, in_or_app; left; exact Iq).
    assert (Hb : forall q, In q (columns b) -> col_val j (fst q) (snd q) = None \/ col_val j (fst q) (snd q) = Some v)
      by (intros q Iq; apply H, in_or_app; right; exact Iq).
    apply in_app_or in I. destruct I as [I|I].
    + rewrite (IHa Ha); [reflexivity|]. exists p. auto.
    + assert (Eb : eval j b = Some v) by (apply (IHb Hb); exists p; auto).
      destruct (existsb (fun q => match col_val j (fst q) (snd q) with Some _ => true | None => false end) (columns a)) eqn:X.
      * apply existsb_exists in X. destruct X as (q & Iq & Vq).
        rewrite (IHa Ha); [reflexivity|]. exists q. split; [exact Iq|].
        destruct (Ha q Iq) as [N|S]; [rewrite N in Vq; discriminate|exact S].
      * rewrite (eval_none j a); [exact Eb|]. intros q Iq.
        pose proof (proj1 (existsb_false _ _) X q Iq) as F. simpl in F.
        destruct (col_val j (fst q) (snd q)); [discriminate|reflexivity].
Qed.

Definition present (c : mconf) (f : mcol) : list (string * string) :=
  filter (fun e => mem (snd e) (all_dim_ids c)) (entries_for c (mc_id f)).
Definition entry_col (m : string * string) : string * string := (fst m, replace "." "_" (snd m)).
Definition cols_step (c : mconf) (a : string) (cols : list (string * string)) (p : string * mcol)
  : list (string * string) :=
  if String.eqb (mc_alias (snd p)) a then
    match entries_for c (mc_id (snd p)) with
    | [] => cols ++ [(fst p, a)]
    | _ => (fst p, a) :: map entry_col (present c (snd p))
    end
  else cols.

Lemma nested_columns l : forall e, nested_if_null l = Ok e -> columns e = map entry_col l.
Proof.
  induction l as [|m l IH]; intros e H; [discriminate H|]. destruct l as [|m' l].
  - injection H as <-. reflexivity.
  - cbn [nested_if_null] in H. apply bind_ok in H. destruct H as [x [A B]]. injection B as <-.
    simpl. rewrite (IH x A). reflexivity.
Qed.
Lemma nested_ok l : l <> [] -> exists e, nested_if_null l = Ok e.
Proof.
  induction l as [|m l IH]; intros N; [congruence|]. destruct l as [|m' l]; [eexists; reflexivity|].
  destruct IH as [e E]; [discriminate|]. cbn [nested_if_null]. cbn [nested_if_null] in E. rewrite E.
  eexists. reflexivity.
Qed.

Lemma assoc_set {B} k k' (v : B) d : assoc k (set_item k' v d) = if String.eqb k k' then Some v else assoc k d.
Proof.
  induction d as [|[q w] d IH]; simpl.
  - destruct (String.eqb k k'); reflexivity.
  - destruct (String.eqb k' q) eqn:E; simpl.
    + apply String.eqb_eq in E. subst q. destruct (String.eqb k k'); reflexivity.
    + rewrite IH. destruct (String.eqb k q) eqn:F; [|reflexivity]. apply String.eqb_eq in F. subst q.
      destruct (String.eqb k k') eqn:G; [|reflexivity]. apply String.eqb_eq in G. subst. rewrite String.eqb_refl in E. discriminate.
Qed.

Definition cols_of (o : option sqle) : list (string * string) :=
  match o with Some e => columns e | None => [] end.

Lemma dim_step_cols c acc p acc' a : dim_step c acc p = Ok acc' ->
  cols_of (assoc a acc') = cols_step c a (cols_of (assoc a acc)) p
  /\ (assoc a acc' = None <-> assoc a acc = None /\ mc_alias (snd p) <> a).
Proof.
  destruct p as [h f]. unfold dim_step, cols_step. simpl. intros H.
  destruct (entries_for c (mc_id f)) as [|e es] eqn:En.
  - injection H as <-. rewrite assoc_set, String.eqb_sym. destruct (String.eqb (mc_alias f) a) eqn:E.
    + apply String.eqb_eq in E. subst a. split; [destruct (assoc (mc_alias f) acc); reflexivity|].
      split; [discriminate|intros [_ X]; congruence].
    + apply String.eqb_neq in E. split; [reflexivity|]. tauto.
  - apply bind_ok in H. destruct H as [x [A B]]. injection B as <-.
    rewrite assoc_set, String.eqb_sym. destruct (String.eqb (mc_alias f) a) eqn:E.
    + apply String.eqb_eq in E. subst a. simpl. split.
      * f_equal. unfold present. rewrite En. apply nested_columns. exact A.
      * split; [discriminate|intros [_ X]; congruence].
    + apply String.eqb_neq in E. split; [reflexivity|]. tauto.
Qed.
Lemma dim_loop_cols c a l : forall acc sel, dim_loop c acc l = Ok sel ->
  cols_of (assoc a sel) = fold_left (cols_step c a) l (cols_of (assoc a acc))
  /\ (assoc a sel = None <-> assoc a acc = None /\ ~ In a (map (fun p => mc_alias (snd p)) l)).
Proof.
  induction l as [|p l IH]; intros acc sel H; simpl in H.
  - injection H as <-. simpl. tauto.
  - apply bind_ok in H. destruct H as [acc' [A B]]. destruct (dim_step_cols _ _ _ _ a A) as [C1 C2].
    destruct (IH _ _ B) as [D1 D2]. simpl. rewrite D1, C1. split; [reflexivity|]. rewrite D2, C2. tauto.
Qed.
Lemma dim_loop_total c l : (forall p, In p l -> entries_for c (mc_id (snd p)) = [] \/ present c (snd p) <> []) ->
  forall acc, exists sel, dim_loop c acc l = Ok sel.
Proof.
  induction l as [|[h f] l IH]; intros H acc; cbn [dim_loop]; [eexists; reflexivity|].
  assert (exists acc', dim_step c acc (h, f) = Ok acc') as [acc' E].
  { unfold dim_step. destruct (H (h, f) (or_introl eq_refl)) as [X|X].
    - simpl in X. rewrite X. eexists. reflexivity.
    - simpl in X. unfold present in X. destruct (entries_for c (mc_id f)) as [|e es]; [eexists; reflexivity|].
      destruct (nested_ok _ X) as [x ->]. eexists. reflexivity. }
  rewrite E. cbn [bind]. apply IH. intros p I. apply H. right. exact I.
Qed.

Lemma flat_items_In (d : list (string * list mcol)) h f :
  In (h, f) (flat_items d) <-> exists l, In (h, l) d /\ In f l.
Proof.
  unfold flat_items. rewrite in_flat_map. split.
  - intros ([h' l] & I & J). simpl in J. apply in_map_iff in J. destruct J as (f' & E & J). injection E as -> ->.
    exists l. auto.
  - intros (l & I & J). exists (h, l). split; [exact I|]. simpl. apply in_map. exact J.
Qed.
Lemma flat_sorted_In (d : list (string * list mcol)) p :
  In p (flat_items (sorted_items d)) <-> In p (flat_items d).
Proof.
  destruct p as [h f]. rewrite !flat_items_In. unfold sorted_items. split; intros (l & I & J); exists l; (split; [|exact J]).
  - apply isort_In in I. exact I.
  - apply isort_In. exact I.
Qed.

Lemma flat_sorted_items (d : list (string * list mcol)) h f :
  In (h, f) (flat_items (sorted_items d)) -> exists l, In (h, l) d /\ In f l.
Proof. intros I. apply (proj1 (flat_sorted_In d _)) in I. apply flat_items_In. exact I. Qed.
Lemma NoDup_app_intro {A} (l m : list A) :
  NoDup l -> NoDup m -> (forall x, In x l -> In x m -> False) -> NoDup (l ++ m).
Proof.
  induction 1 as [|x l NI ND IH]; simpl; intros M D; [exact M|]. constructor.
  - intros I. apply in_app_or in I. destruct I as [I|I]; [contradiction|]. apply (D x); [left; reflexivity|exact I].
  - apply IH; [exact M|]. intros y I. apply D. right. exact I.
Qed.

(** Without mappings the columns of an alias are those of every sub query having it *)
Lemma cols_shared c a l : (forall p, In p l -> entries_for c (mc_id (snd p)) = []) -> forall cols,
  fold_left (cols_step c a) l cols =
  cols ++ map (fun p => (fst p, a)) (filter (fun p => String.eqb (mc_alias (snd p)) a) l).
Proof.
  induction l as [|p l IH]; intros H cols; simpl; [rewrite app_nil_r; reflexivity|].
  rewrite IH by (intros q I; apply H; right; exact I). unfold cols_step.
  rewrite (H p (or_introl eq_refl)). destruct (String.eqb (mc_alias (snd p)) a); simpl; [|reflexivity].
  rewrite <- app_assoc. reflexivity.
Qed.
Lemma cols_skip c a l : (forall p, In p l -> mc_alias (snd p) <> a) -> forall cols,
  fold_left (cols_step c a) l cols = cols.
Proof.
  induction l as [|p l IH]; intros H cols; simpl; [reflexivity|].
  rewrite IH by (intros q I; apply H; right; exact I). unfold cols_step.
  destruct (String.eqb (mc_alias (snd p)) a) eqn:E; [|reflexivity]. apply String.eqb_eq in E.
  exfalso. apply (H p (or_introl eq_refl) E).
Qed.
(** A mapped field occurring once *)
Lemma cols_mapped c l p : In p l -> NoDup l ->
  (forall q, In q l -> mc_alias (snd q) = mc_alias (snd p) -> q = p) ->
  entries_for c (mc_id (snd p)) <> [] -> forall cols,
  fold_left (cols_step c (mc_alias (snd p))) l cols = (fst p, mc_alias (snd p)) :: map entry_col (present c (snd p)).
Proof.
  intros I ND U N. induction l as [|q l IH]; intros cols; [destruct I|]. simpl.
  inversion ND as [|? ? NI ND']; subst. destruct I as [->|I].
  - rewrite cols_skip.
    + unfold cols_step. rewrite String.eqb_refl. destruct (entries_for c (mc_id (snd p))); [congruence|reflexivity].
    + intros q J E. apply NI. rewrite <- (U q (or_intror J) E). exact J.
  - apply IH; auto. intros q' J. apply U. right. exact J.
Qed.
