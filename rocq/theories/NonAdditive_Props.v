(** C54: measures with a non-additive dimension. *)
From Coq Require Import List String Ascii ZArith QArith Bool Lia Permutation.
From Verif Require Import PyBase PyStr PySort PyReplace PyList NonAdditive_Model NonAdditive_Spec.
Import ListNotations.
Local Open Scope string_scope.
Local Open Scope list_scope.
Local Open Scope nat_scope.

(** ** MAX and MIN *)
Lemma pick_none c l : pick c l = None <-> forall x, In x l -> x = None.
Proof.
  induction l as [|[x|] l IH]; cbn [pick].
  - split; [intros _ x []|reflexivity].
  - destruct (pick c l); (split; [discriminate|]); intros H; discriminate (H (Some x) (or_introl eq_refl)).
  - rewrite IH. split.
    + intros H x [<-|I]; auto.
    + intros H x I. apply H. now right.
Qed.
Lemma pick_some c l d : pick c l = Some d <-> In (Some d) l /\ forall e, In (Some e) l -> at_least c d e.
Proof.
  revert d. induction l as [|[x|] l IH]; intros d; cbn [pick].
  - split; [discriminate|intros [[] _]].
  - destruct (pick c l) as [y|] eqn:P.
    + destruct (proj1 (IH y) eq_refl) as [IY BY]. split.
      * intros H. injection H as <-. unfold better, at_least in *. destruct c.
        -- split; [destruct (Z.max_spec x y) as [[? ->]|[? ->]]; [right; exact IY|left; reflexivity]|].
           intros e [E|E]; [injection E as <-|specialize (BY e E)]; lia.
        -- split; [destruct (Z.min_spec x y) as [[? ->]|[? ->]]; [left; reflexivity|right; exact IY]|].
           intros e [E|E]; [injection E as <-|specialize (BY e E)]; lia.
      * intros [I B]. f_equal. pose proof (B x (or_introl eq_refl)) as Bx. pose proof (B y (or_intror IY)) as By.
        unfold better, at_least in *. destruct I as [E|I]; [injection E as ->|specialize (BY d I)]; destruct c; lia.
    + split.
      * intros H. injection H as <-. split; [left; reflexivity|]. intros e [E|E].
        -- injection E as <-. destruct c; cbn; lia.
        -- discriminate (proj1 (pick_none c l) P _ E).
      * intros [[E|I] _]; [now rewrite E|]. discriminate (proj1 (pick_none c l) P _ I).
  - rewrite IH. split; intros [I B].
    + split; [right; exact I|]. intros e [E|E]; [discriminate|auto].
    + split; [destruct I as [E|I]; [discriminate|exact I]|]. intros e E. apply B. now right.
Qed.

(** ** Rows of a sub query *)
Section Join.
  Variable R : Type.
  Variable col : fld -> R -> option Z.
  Notation key := (key R col).
  Notation group_row := (group_row R col).

  Lemma keyb_true a b : keyb a b = true <-> a = b.
  Proof. unfold keyb. destruct (key_dec a b); split; congruence. Qed.
  Lemma key_same gs r r' : key gs r = key gs r' <-> same R col gs r r'.
  Proof.
    unfold NonAdditive_Spec.key, same. induction gs as [|g gs IH]; cbn [map].
    - split; [intros _ f []|reflexivity].
    - split.
      + intros E. injection E as E1 E2. intros f [<-|I]; [exact E1|]. apply IH; assumption.
      + intros H. f_equal; [apply H; now left|]. apply IH. intros f I. apply H. now right.
  Qed.
  Lemma cell_key gs tail r f : NoDup (map col_alias gs) -> In f gs ->
    cell (combine (map col_alias gs) (key gs r) ++ tail) (col_alias f) = col f r.
  Proof.
    unfold cell. induction gs as [|g gs IH]; intros N I; [destruct I|]. cbn [map NonAdditive_Spec.key combine app assoc].
    cbn [map] in N. inversion N as [|? ? N1 N2]; subst. destruct (String.eqb_spec (col_alias f) (col_alias g)) as [E|E].
    - destruct I as [->|I]; [reflexivity|]. exfalso. apply N1. rewrite <- E. now apply in_map.
    - destruct I as [->|I]; [congruence|]. apply IH; assumption.
  Qed.
  Lemma cell_temp gs k t v : ~ In t (map col_alias gs) -> cell (combine (map col_alias gs) k ++ [(t, v)]) t = v.
  Proof.
    unfold cell. revert k. induction gs as [|g gs IH]; intros k N; cbn [map combine app assoc].
    - now rewrite String.eqb_refl.
    - destruct k as [|x k]; cbn [combine app assoc]; [now rewrite String.eqb_refl|].
      cbn [map] in N. destruct (String.eqb_spec t (col_alias g)) as [E|E]; [exfalso; apply N; left; congruence|].
      apply IH. intros H. apply N. now right.
  Qed.
  Lemma columns_split q : NoDup (columns q) -> NoDup (map col_alias (q_groups q)) /\ ~ In (q_temp q) (map col_alias (q_groups q)).
  Proof.
    unfold columns. intros N. apply NoDup_remove in N. now rewrite app_nil_r in N.
  Qed.

  (** no NULL among the values of the window, unless NULLs are equal *)
  Definition usable (n : nad) (gs : list fld) (r : R) : Prop := n_nulls n = true \/ forall f, In f gs -> col f r <> None.

  Lemma on_true n sf q rows r r0 : NoDup (columns q) -> q_groups q <> [] ->
    (forallb (holds R col r (group_row q rows (key (q_groups q) r0))) (on_conds sf n (q_groups q)) = true
     <-> key (q_groups q) r = key (q_groups q) r0 /\ usable n (q_groups q) r).
  Proof.
    intros N NE. apply columns_split in N. destruct N as [N _].
    assert (C : forall f, In f (q_groups q) -> cell (group_row q rows (key (q_groups q) r0)) (col_alias f) = col f r0)
      by (intros f I; unfold NonAdditive_Spec.group_row; now apply cell_key).
    rewrite key_same. unfold same, usable. unfold on_conds. destruct (q_groups q) as [|g0 gs0] eqn:G; [congruence|]. rewrite <- G in *.
    rewrite forallb_forall. destruct (n_nulls n) eqn:NU.
    - split.
      + intros H. split; [|now left]. intros f I.
        specialize (H _ (in_map (fun f => if sf then JEqualNull f (col_alias f) else JOrNull f (col_alias f)) _ f I)).
        destruct sf; cbn [holds] in H; rewrite (C f I) in H; destruct (col f r) as [x|], (col f r0) as [y|]; cbn in H; try discriminate H; try reflexivity.
        * apply Z.eqb_eq in H. now subst.
        * rewrite orb_false_r in H. apply Z.eqb_eq in H. now subst.
      + intros [H _] j J. apply in_map_iff in J. destruct J as [f [<- I]].
        destruct sf; cbn [holds]; rewrite (C f I), <- (H f I); destruct (col f r) as [x|]; cbn; rewrite ?Z.eqb_refl; reflexivity.
    - split.
      + intros H. assert (K : forall f, In f (q_groups q) -> exists x, col f r = Some x /\ col f r0 = Some x).
        { intros f I. specialize (H _ (in_map (fun f => JEq f (col_alias f)) _ f I)). cbn [holds] in H. rewrite (C f I) in H.
          destruct (col f r) as [x|], (col f r0) as [y|]; cbn in H; try discriminate H. apply Z.eqb_eq in H. subst. eauto. }
        split; [|right]; intros f I; destruct (K f I) as [x [E1 E2]]; congruence.
      + intros [H [U|U]] j J; [discriminate|]. apply in_map_iff in J. destruct J as [f [<- I]]. cbn [holds]. rewrite (C f I), <- (H f I).
        destruct (col f r) as [x|] eqn:E; [cbn; apply Z.eqb_refl|]. now specialize (U f I).
  Qed.

  (** the row of the sub query that is joined to [r] *)
  Definition usableb (n : nad) (gs : list fld) (r : R) : bool :=
    n_nulls n || forallb (fun f => match col f r with Some _ => true | None => false end) gs.
  Lemma usableb_spec n gs r : usableb n gs r = true <-> usable n gs r.
  Proof.
    unfold usableb, usable. rewrite orb_true_iff, forallb_forall. split; (intros [H|H]; [now left|right]); intros f I; specialize (H f I); destruct (col f r); congruence.
  Qed.
  Definition joined (n : nad) (q : csql) (rows : list R) (r : R) : option crow :=
    match q_groups q with
    | [] => Some (group_row q rows [])
    | gs => if existsb (fun r' => keyb (key gs r) (key gs r')) rows && usableb n gs r then Some (group_row q rows (key gs r)) else None
    end.

  Lemma filter_unique {A} (f : A -> bool) l x : NoDup l -> In x l -> f x = true -> (forall y, In y l -> f y = true -> y = x) -> filter f l = [x].
  Proof.
    induction l as [|a l IH]; intros N I F U; [destruct I|]. inversion N as [|? ? N1 N2]; subst. cbn [filter].
    destruct I as [->|I].
    - rewrite F. f_equal. apply filter_nil. intros y Y. destruct (f y) eqn:E; [|reflexivity].
      rewrite (U y (or_intror Y) E) in Y. contradiction.
    - destruct (f a) eqn:E.
      + rewrite (U a (or_introl eq_refl) E) in N1. contradiction.
      + apply IH; auto. intros y Y. apply U. now right.
  Qed.
  Lemma filter_map_comm {A B} (f : B -> bool) (g : A -> B) l : filter f (map g l) = map g (filter (fun x => f (g x)) l).
  Proof. induction l as [|a l IH]; cbn [map filter]; [reflexivity|]. destruct (f (g a)); cbn [map]; now rewrite IH. Qed.

  Lemma left_join_once {A} (row : A -> R) n sf q src rows : NoDup (columns q) ->
    left_join R col row rows (table R col q src) (on_conds sf n (q_groups q)) = map (fun a => (a, joined n q src (row a))) rows.
  Proof.
    intros N. induction rows as [|a rows IH]; [reflexivity|]. unfold left_join in *. cbn [flat_map]. rewrite map_cons, IH. clear IH.
    match goal with |- ?x ++ ?y = ?z :: ?y => assert (E : x = [z]); [|now rewrite E] end.
    pose proof (fun r r0 => on_true n sf q src r r0 N) as ON.
    unfold table, joined. destruct (q_groups q) as [|g0 gs0] eqn:G.
    - cbn [on_conds filter forallb holds andb map]. reflexivity.
    - set (gs := g0 :: gs0) in *. rewrite filter_map_comm.
      destruct (existsb _ src && usableb n gs (row a)) eqn:B.
      + apply andb_prop in B. destruct B as [B1 B2]. apply existsb_exists in B1. destruct B1 as [r0 [I0 K]]. apply keyb_true in K.
        rewrite (filter_unique _ _ (key gs (row a))); [reflexivity|apply NoDup_nodup| | |].
        * apply nodup_In. rewrite K. now apply in_map.
        * rewrite ON by discriminate. split; [reflexivity|]. now apply usableb_spec.
        * intros k I. apply nodup_In, in_map_iff in I. destruct I as [r1 [<- _]]. rewrite ON by discriminate. intros [E _]. congruence.
      + rewrite (proj2 (filter_nil _ _)); [reflexivity|]. intros k I. apply nodup_In, in_map_iff in I. destruct I as [r1 [<- I1]].
        match goal with |- ?b = false => destruct b eqn:E; [|reflexivity] end. rewrite ON in E by discriminate. destruct E as [E U].
        apply usableb_spec in U. rewrite U, andb_true_r in B.
        exfalso. assert (existsb (fun r' => keyb (key gs (row a)) (key gs r')) src = true) by (apply existsb_exists; exists r1; split; [exact I1|now apply keyb_true]). congruence.
  Qed.

  (** the chosen date of the joined row is the row's own *)
  Lemma joined_date n q src r : NoDup (columns q) ->
    (match joined n q src r with Some c => eq3 (col (q_date q) r) (cell c (q_temp q)) | None => false end = true
     <-> usable n (q_groups q) r /\ extreme R col (q_choice q) (q_date q) (q_groups q) src r).
  Proof.
    intros N. apply columns_split in N. destruct N as [_ N].
    assert (T : forall k, cell (group_row q src k) (q_temp q) = pick (q_choice q) (map (col (q_date q)) (filter (fun r => keyb (key (q_groups q) r) k) src)))
      by (intros k; unfold NonAdditive_Spec.group_row; now apply cell_temp).
    assert (P : forall d, col (q_date q) r = Some d ->
              (pick (q_choice q) (map (col (q_date q)) (filter (fun r' => keyb (key (q_groups q) r') (key (q_groups q) r)) src)) = Some d
               <-> extreme R col (q_choice q) (q_date q) (q_groups q) src r)).
    { intros d D. rewrite pick_some. unfold extreme. split.
      - intros [I B]. exists d. split; [exact D|]. split.
        + apply in_map_iff in I. destruct I as [r' [E I]]. apply filter_In in I. destruct I as [I K]. apply keyb_true in K.
          exists r'. split; [exact I|]. split; [apply key_same; congruence|exact E].
        + intros r' e I9 S E. apply B. apply in_map_iff. exists r'. split; [exact E|]. apply filter_In. split; [exact I9|]. apply keyb_true. apply key_same in S. congruence.
      - intros [d' [D' [[r' [I [S E]]] B]]]. assert (d' = d) by congruence. subst d'. split.
        + apply in_map_iff. exists r'. split; [exact E|]. apply filter_In. split; [exact I|]. apply keyb_true. apply key_same in S. congruence.
        + intros e I'. apply in_map_iff in I'. destruct I' as [r2 [E2 I2]]. apply filter_In in I2. destruct I2 as [I2 K2]. apply keyb_true in K2.
          apply (B r2 e I2); [apply key_same; congruence|exact E2]. }
    assert (EQ : forall v, eq3 (col (q_date q) r) v = true <-> exists d, col (q_date q) r = Some d /\ v = Some d).
    { intros v. destruct (col (q_date q) r) as [x|], v as [y|]; cbn [eq3]; split; try discriminate; try (intros [d [? ?]]; congruence).
      - intros H. apply Z.eqb_eq in H. subst. eauto.
      - intros [d [E1 E2]]. apply Z.eqb_eq. congruence. }
    unfold joined. destruct (q_groups q) as [|g0 gs0] eqn:G.
    - rewrite T, EQ. split.
      + intros [d [D K]]. split; [right; intros f []|]. apply (P d D). exact K.
      + intros [_ X]. pose proof X as [d [D _]]. exists d. split; [exact D|]. apply (P d D) in X. exact X.
    - rewrite <- G in *. destruct (existsb _ src && usableb n (q_groups q) r) eqn:B.
      + apply andb_prop in B. destruct B as [_ B2]. apply usableb_spec in B2. rewrite T, EQ. split.
        * intros [d [D K]]. split; [exact B2|]. apply (P d D). exact K.
        * intros [_ X]. pose proof X as [d [D _]]. exists d. split; [exact D|]. apply (P d D) in X. exact X.
      + split; [discriminate|]. intros [U X]. apply usableb_spec in U. rewrite U, andb_true_r in B.
        destruct X as [d [_ [[r' [I [S _]]] _]]]. exfalso.
        assert (existsb (fun r1 => keyb (key (q_groups q) r) (key (q_groups q) r1)) src = true) by (apply existsb_exists; exists r'; split; [exact I|apply keyb_true; now apply key_same]).
        congruence.
  Qed.
  Lemma joined_group n q src r c f : NoDup (columns q) -> In f (q_groups q) -> joined n q src r = Some c -> cell c (col_alias f) = col f r.
  Proof.
    intros N I. apply columns_split in N. destruct N as [N _]. unfold joined. destruct (q_groups q) as [|g0 gs0] eqn:G; [destruct I|]. rewrite <- G in *.
    destruct (_ && _); [|discriminate]. intros E. injection E as <-. unfold NonAdditive_Spec.group_row. now apply cell_key.
  Qed.

  (** all joins: every row once, with the row of each sub query *)
  Definition on_of (sf : bool) (p : part) (n : nad) : Prop := p_on p = on_conds sf n (q_groups (p_sql p)).
  Lemma join_all_once sf (source : part -> list R) ps ns : Forall2 (on_of sf) ps ns -> (forall p, In p ps -> NoDup (columns (p_sql p))) ->
    forall rows, join_all R col source ps rows =
      map (fun x => (fst x, snd x ++ map (fun pn => (p_cte (fst pn), joined (snd pn) (p_sql (fst pn)) (source (fst pn)) (fst x))) (combine ps ns))) rows.
  Proof.
    induction 1 as [|p n ps ns O _ IH]; intros N rows; cbn [join_all combine map].
    - rewrite <- (map_id rows) at 1. apply map_ext. intros [r l]. cbn. now rewrite app_nil_r.
    - rewrite IH by (intros p' I; apply N; now right). unfold on_of in O. rewrite O.
      rewrite (left_join_once fst n sf (p_sql p) (source p) rows) by (apply N; now left). rewrite !map_map. apply map_ext. intros [r l]. cbn. rewrite <- app_assoc. reflexivity.
  Qed.
End Join.

(** ** The sub queries of a query *)
Section Query.
  Variable get_field : string -> res fld.
  Variable refs : string -> res (list meas).
  Variable sf : bool.
  Notation parts := (parts get_field refs sf).
  Notation one_part := (one_part get_field sf).

  Definition from_store (st : store) (ms : list meas) (c : cte) : Prop :=
    In (c_meas c) ms /\ exists n, assoc (m_id (c_meas c)) st = Some n /\ c_nad c = qualified (m_view (c_meas c)) n
      /\ c_alias c = na_alias (c_meas c) (c_nad c) /\ c_cte c = na_cte (c_meas c) (c_nad c).
  Lemma fold_ctes st ms all : incl ms all -> forall acc, Forall (from_store st all) acc -> NoDup (map c_cte acc) ->
    let cs := fold_left (add_cte st) ms acc in
    Forall (from_store st all) cs /\ NoDup (map c_cte cs) /\ incl acc cs /\
    forall m n, In m ms -> assoc (m_id m) st = Some n -> In (na_cte m (qualified (m_view m) n)) (map c_cte cs).
  Proof.
    induction ms as [|m ms IH]; intros IN acc F N; cbn [fold_left].
    - repeat split; auto; [intros x; auto|intros m n []].
    - assert (IN' : incl ms all) by (intros x X; apply IN; now right).
      assert (S : Forall (from_store st all) (add_cte st acc m) /\ NoDup (map c_cte (add_cte st acc m)) /\ incl acc (add_cte st acc m)
                  /\ forall n, assoc (m_id m) st = Some n -> In (na_cte m (qualified (m_view m) n)) (map c_cte (add_cte st acc m))).
      { unfold add_cte. destruct (assoc (m_id m) st) as [n|] eqn:A.
        2:{ repeat split; auto; [intros x; auto|discriminate]. }
        destruct (mem _ (map c_cte acc)) eqn:M.
        - apply mem_In in M. repeat split; auto; [intros x; auto|]. intros n' E. injection E as <-. exact M.
        - apply mem_false in M. repeat split.
          + apply Forall_app. split; [exact F|]. constructor; [|constructor]. split; [apply IN; now left|]. exists n. repeat split. exact A.
          + rewrite map_app. cbn [map c_cte]. apply NoDup_Add with (a := na_cte m (qualified (m_view m) n)) (l := map c_cte acc).
            * rewrite <- (app_nil_r (map c_cte acc)) at 1. apply Add_app.
            * split; assumption.
          + intros x X. apply in_or_app. now left.
          + intros n' E. injection E as <-. rewrite map_app. apply in_or_app. right. now left. }
      destruct S as [S1 [S2 [S3 S4]]]. destruct (IH IN' _ S1 S2) as [T1 [T2 [T3 T4]]]. repeat split; auto.
      + intros x X. apply T3, S3, X.
      + intros m' n [<-|I] A; [|now apply T4]. specialize (S4 n A). apply in_map_iff in S4. destruct S4 as [c [<- I]]. now apply in_map, T3.
  Qed.

  Lemma parts_ok st metrics dims ps st' : parts st metrics dims = Ok (ps, st') ->
    exists ms cs, concatM refs metrics = Ok ms /\ Forall (from_store st ms) cs /\ NoDup (map c_cte cs)
      /\ (forall m n, In m ms -> assoc (m_id m) st = Some n -> In (na_cte m (qualified (m_view m) n)) (map c_cte cs))
      /\ Forall2 (fun c p => one_part dims c = Ok p) cs ps /\ st' = fold_left (leave get_field dims) cs st.
  Proof.
    unfold NonAdditive_Model.parts, collect. intros H. apply bind_ok in H. destruct H as [cs0 [C H]]. apply bind_ok in C. destruct C as [ms [M C]]. injection C as <-.
    apply bind_ok in H. destruct H as [ps' [P H]]. injection H as <- <-. apply mapM_ok in P.
    destruct (fold_ctes st ms ms (fun x X => X) [] (Forall_nil _) (NoDup_nil _)) as [F [N [_ A]]].
    exists ms, (isort by_alias (fold_left (add_cte st) ms [])).
    pose proof (isort_perm by_alias (fold_left (add_cte st) ms [])) as PERM. split; [exact M|]. split.
    { apply Forall_forall. intros c I. rewrite Forall_forall in F. apply F. apply (Permutation_in _ PERM I). }
    split; [eapply Permutation_NoDup; [apply Permutation_map; apply Permutation_sym; exact PERM|exact N]|]. split.
    { intros m n I E. eapply Permutation_in; [apply Permutation_map; apply Permutation_sym; exact PERM|]. now apply A. }
    split; [exact P|reflexivity].
  Qed.

  Lemma one_part_ok dims c p : one_part dims c = Ok p ->
    exists ds gs f, group_dims get_field dims c = Ok ds /\ Forall2 (fun d g => get_field d = Ok g) ds gs /\ get_field (n_name (c_nad c)) = Ok f
      /\ p = Part (c_cte c) (CSql gs (n_choice (c_nad c)) f (f_view f ++ "_" ++ lower (choice_text (n_choice (c_nad c)) ++ "_" ++ last_part (n_name (c_nad c))))%string) (on_conds sf (c_nad c) gs).
  Proof.
    unfold NonAdditive_Model.one_part, cte_sql. intros H. apply bind_ok in H. destruct H as [ds [D H]]. apply bind_ok in H. destruct H as [gs [G H]].
    apply bind_ok in H. destruct H as [q [Q H]]. apply bind_ok in Q. destruct Q as [f [F Q]]. injection Q as <-. injection H as <-.
    apply mapM_ok in G. exists ds, gs, f. repeat split; assumption.
  Qed.
  Lemma qualify_nodot v s : has_char dot (qualify v s) = true.
  Proof. unfold qualify. destruct (has_char dot s) eqn:E; [exact E|]. rewrite !has_char_app. cbn. now rewrite orb_true_r. Qed.
  Lemma qualify_idem v v' s : qualify v' (qualify v s) = qualify v s.
  Proof. unfold qualify at 1. now rewrite qualify_nodot. Qed.
  Lemma qualified_idem v v' n : qualified v' (qualified v n) = qualified v n.
  Proof.
    unfold qualified. cbn. rewrite qualify_idem. f_equal. destruct (n_groupings n) as [[|g gs]|]; try reflexivity. cbn [map]. rewrite qualify_idem, map_map.
    do 2 f_equal. apply map_ext. intros a. apply qualify_idem.
  Qed.
  Lemma own_qualified v n : own_groupings (qualified v n) = map (qualify v) (own_groupings n).
  Proof. unfold own_groupings, qualified. cbn. destruct (n_groupings n) as [[|g gs]|]; reflexivity. Qed.

  (** The fields whose values make up the window of [m] in a query by [dims] *)
  Definition window_field (m : meas) (n : nad) (dims : list string) (f : fld) : Prop :=
    (exists gs w, n_groupings n = Some gs /\ In w gs /\ get_field (qualify (m_view m) w) = Ok f)
    \/ (n_aware n = true /\ exists d, In d dims /\ get_field (lower d) = Ok f)
    \/ (n_aware n = false /\ exists d df, In d dims /\ get_field d = Ok f /\ get_field (qualify (m_view m) (n_name n)) = Ok df /\ f_name df = f_name f).

  Lemma dedup_In l x : In x (dedup l) <-> In x l.
  Proof.
    unfold dedup, dedup_by. pose proof (dedup_by_aux_keys (fun s : string => s) [] l x) as H. rewrite !map_id in H. rewrite H. cbn. tauto.
  Qed.
  Lemma window_fields m n dims c ds gs : c_meas c = m -> c_nad c = qualified (m_view m) n ->
    group_dims get_field dims c = Ok ds -> Forall2 (fun d g => get_field d = Ok g) ds gs -> forall f, In f gs <-> window_field m n dims f.
  Proof.
    intros CM CN G F f. unfold group_dims in G. apply bind_ok in G. destruct G as [a [A G]]. injection G as <-.
    assert (D : In f gs <-> exists d, In d (dedup (own_groupings (c_nad c) ++ a)) /\ get_field d = Ok f).
    { split.
      - intros I. destruct (Forall2_In_r _ _ _ F f I) as [d [I' E]]. eauto.
      - intros [d [I E]]. destruct (Forall2_In_l _ _ _ F d I) as [g [I' E']]. congruence. }
    rewrite D. clear D F. rewrite CN, own_qualified in *. unfold window_field, appended in *. rewrite CN in A. cbn [n_aware qualified n_name] in A.
    assert (O : forall P : string -> Prop, (exists d, In d (map (qualify (m_view m)) (own_groupings n)) /\ P d) <-> exists gs w, n_groupings n = Some gs /\ In w gs /\ P (qualify (m_view m) w)).
    { intros P. unfold own_groupings. split.
      - intros [d [I H]]. apply in_map_iff in I. destruct I as [w [<- I]]. destruct (n_groupings n) as [l|]; [|destruct I]. exists l, w. auto.
      - intros [l [w [-> [I H]]]]. exists (qualify (m_view m) w). split; [now apply in_map|exact H]. }
    transitivity ((exists d, In d (map (qualify (m_view m)) (own_groupings n)) /\ get_field d = Ok f) \/ exists d, In d a /\ get_field d = Ok f).
    { split.
      - intros [d [I E]]. apply (proj1 (dedup_In _ _)) in I. apply in_app_or in I. destruct I as [I|I]; [left|right]; eauto.
      - intros [[d [I E]]|[d [I E]]]; exists d; (split; [|exact E]); apply dedup_In, in_or_app; auto. }
    rewrite (O (fun d => get_field d = Ok f)). destruct (n_aware n).
    - injection A as <-. split.
      + intros [H|[d [I E]]]; [now left|]. apply in_map_iff in I. destruct I as [d0 [<- I]]. right. left. eauto.
      + intros [H|[[_ [d [I E]]]|[? _]]]; [now left| |discriminate]. right. exists (lower d). split; [now apply in_map|exact E].
    - apply bind_ok in A. destruct A as [df [DF A]]. apply filterM_ok in A. destruct A as [T A]. split.
      + intros [H|[d [I E]]]; [now left|]. right. right. split; [reflexivity|]. subst a. apply filter_In in I. destruct I as [I B].
        exists d, df. rewrite E in B. cbn in B. destruct (String.eqb_spec (f_name df) (f_name f)); [auto|discriminate].
      + intros [H|[[? _]|[_ [d [df' [I [E [DF' N]]]]]]]]; [now left|discriminate|]. right. exists d. split; [|exact E]. subst a. apply filter_In. split; [exact I|].
        rewrite E. cbn. assert (df' = df) by congruence. subst df'. now rewrite N, String.eqb_refl.
  Qed.
  Lemma lower_choice c : lower (choice_text c) = choice_text c.
  Proof. destruct c; reflexivity. Qed.
  Lemma temp_alias m n f : f_view f = m_view m ->
    (f_view f ++ "_" ++ lower (choice_text (n_choice n) ++ "_" ++ last_part (n_name n)))%string = na_alias m n.
  Proof. intros ->. unfold na_alias. rewrite !lower_app, lower_choice. reflexivity. Qed.
  Lemma id_replaced f : has_char dot (f_view f) = false -> has_char dot (f_alias f) = false -> replace "." "_" (f_id f) = col_alias f.
  Proof.
    intros A B. unfold f_id, col_alias. change "."%string with (String dot "") at 1. rewrite replace_skip_prefix by exact A. f_equal.
    change ("." ++ f_alias f)%string with (String dot "" ++ f_alias f)%string. rewrite replace_head by discriminate. f_equal.
    rewrite <- (append_nil_r (f_alias f)) at 1. rewrite replace_skip_prefix by exact B. cbn. apply append_nil_r.
  Qed.

  Section Rows.
    Variable R : Type.
    Variable col : fld -> R -> option Z.
    Definition start (rows : list R) : list (R * list (string * option crow)) := map (fun r => (r, [])) rows.

    (** Every row of the query is there exactly once, however many sub queries are joined *)
    Theorem C54_rows_once st metrics dims ps st' : parts st metrics dims = Ok (ps, st') ->
      (forall p, In p ps -> NoDup (columns (p_sql p))) ->
      forall source rows, map fst (join_all R col source ps (start rows)) = rows.
    Proof.
      intros P N source rows. destruct (parts_ok _ _ _ _ _ P) as [ms [cs [_ [_ [_ [_ [F _]]]]]]].
      rewrite (join_all_once R col sf source ps (map c_nad cs)); [| |exact N].
      - unfold start. rewrite !map_map. cbn. apply map_id.
      - clear - F. induction F as [|c p cs ps O _ IH]; cbn [map]; constructor; [|exact IH].
        apply one_part_ok in O. destruct O as [ds [gs [f [_ [_ [_ ->]]]]]]. reflexivity.
    Qed.

    Lemma assoc_combine ps cs (h : part -> nad -> option crow) p c : NoDup (map c_cte cs) -> Forall2 (fun c p => p_cte p = c_cte c) cs ps ->
      In (c, p) (combine cs ps) ->
      assoc (c_cte c) (map (fun pn => (p_cte (fst pn), h (fst pn) (snd pn))) (combine ps (map c_nad cs))) = Some (h p (c_nad c)).
    Proof.
      intros N F. revert N. induction F as [|c0 p0 cs ps E F IH]; intros N I; [destruct I|]. cbn [map combine assoc fst snd]. cbn [map] in N. inversion N as [|? ? N1 N2]; subst.
      rewrite E. destruct I as [I|I].
      - injection I as <- <-. now rewrite String.eqb_refl.
      - destruct (String.eqb_spec (c_cte c) (c_cte c0)) as [X|X]; [|now apply IH]. exfalso. apply N1. rewrite <- X. apply in_map. now apply in_combine_l in I.
    Qed.
    Lemma Forall2_combine {A B} (P : A -> B -> Prop) l l' x : Forall2 P l l' -> In x l -> exists y, In (x, y) (combine l l') /\ P x y.
    Proof. induction 1 as [|a b l l' H _ IH]; intros I; [destruct I|]. destruct I as [->|I]; [exists b; split; [now left|exact H]|]. destruct (IH I) as [y [I' E]]. exists y. split; [now right|exact E]. Qed.

    (** What the names must satisfy: the date belongs to the measure's view; no other measure of the query has a sub
        query of the same name; the columns of each sub query differ; the window groupings are written as the fields'
        ids, without further dots. *)
    Definition well_named (st : store) (ps : list part) (ms : list meas) (m : meas) (n : nad) (date : fld) : Prop :=
      f_view date = m_view m
      /\ (forall m' n', In m' ms -> assoc (m_id m') st = Some n' ->
            na_cte m' (qualified (m_view m') n') = na_cte m (qualified (m_view m) n) -> m' = m)
      /\ (forall p, In p ps -> NoDup (columns (p_sql p)))
      /\ (forall l g f, n_groupings n = Some l -> In g l -> get_field (qualify (m_view m) g) = Ok f ->
            f_id f = qualify (m_view m) g /\ has_char dot (f_view f) = false /\ has_char dot (f_alias f) = false).
    (** The values of the window's fields can be compared: no NULL in a window grouping, and none in a dimension of the
        query unless nulls_are_equal *)
    Definition comparable (m : meas) (n : nad) (gs : list fld) (r : R) : Prop :=
      (n_nulls n = true \/ forall f, In f gs -> col f r <> None)
      /\ (forall l g f, n_groupings n = Some l -> In g l -> get_field (qualify (m_view m) g) = Ok f -> col f r <> None).

    (** The rows a non-additive measure aggregates: those dated last (or first) among the rows of the sub query with the
        same values of the window's fields. *)
    Theorem C54_window st metrics dims ps st' ms m n w date :
      parts st metrics dims = Ok (ps, st') -> concatM refs metrics = Ok ms -> In m ms -> assoc (m_id m) st = Some n ->
      case_conds get_field m n = Ok w -> get_field (qualify (m_view m) (n_name n)) = Ok date -> well_named st ps ms m n date ->
      exists p gs, In p ps /\ (forall f, In f gs <-> window_field m n dims f) /\
        forall source rows x, In x (join_all R col source ps (start rows)) ->
          (case_true R col w x = true <-> comparable m n gs (fst x) /\ extreme R col (n_choice n) date gs (source p) (fst x)).
    Proof.
      intros P M IM A CC DATE [V [U [N CAN]]]. unfold comparable. destruct (parts_ok _ _ _ _ _ P) as [ms' [cs [M' [FS [ND [ALL [F _]]]]]]].
      rewrite M in M'. injection M' as <-.
      (* the sub query of m *)
      pose proof (ALL m n IM A) as IC. apply in_map_iff in IC. destruct IC as [c [EC IC]].
      pose proof (proj1 (Forall_forall _ _) FS c IC) as [IM' [n' [A' [CN [_ CE]]]]].
      assert (CM : c_meas c = m).
      { apply (U _ _ IM' A'). rewrite <- CN, <- CE. exact EC. }
      rewrite CM in *. rewrite A in A'. injection A' as <-.
      destruct (Forall2_combine _ _ _ c F IC) as [p [ICP OP]]. pose proof OP as OP'. apply one_part_ok in OP'.
      destruct OP' as [ds [gs [f [GD [GF [FD PE]]]]]].
      assert (FE : f = date) by (rewrite CN in FD; cbn [qualified n_name] in FD; congruence). subst f.
      assert (TE : q_temp (p_sql p) = na_alias m (c_nad c)) by (rewrite PE; cbn [p_sql q_temp]; now apply temp_alias).
      pose proof (window_fields m n dims c ds gs CM CN GD GF) as WF.
      assert (IP : In p ps) by (apply in_combine_r in ICP; exact ICP).
      exists p, gs. split; [exact IP|]. split; [exact WF|].
      intros source rows x IX.
      rewrite (join_all_once R col sf source ps (map c_nad cs)) in IX; [| |exact N].
      2:{ clear - F. induction F as [|c p cs ps O _ IH]; cbn [map]; constructor; [|exact IH].
          apply one_part_ok in O. destruct O as [ds [gs [f [_ [_ [_ ->]]]]]]. reflexivity. }
      apply in_map_iff in IX. destruct IX as [y [EX IY]]. apply in_map_iff in IY. destruct IY as [r [<- _]]. cbn [fst snd app] in EX. subst x. cbn [fst].
      (* the conditions of the CASE *)
      unfold case_conds in CC. apply bind_ok in CC. destruct CC as [f [FD' CC]]. apply bind_ok in CC. destruct CC as [wg [WG CC]]. injection CC as <-.
      cbn [qualified n_name] in FD'. assert (f = date) by congruence. subst f.
      unfold case_true. cbn [w_cte w_conds fst snd]. rewrite <- CN. rewrite <- CE.
      rewrite (assoc_combine ps cs (fun p n => joined R col n (p_sql p) (source p) r) p c ND); [|clear - F|exact ICP].
      2:{ induction F as [|c p cs ps O _ IH]; constructor; [|exact IH]. apply one_part_ok in O. destruct O as [ds [gs [f [_ [_ [_ ->]]]]]]. reflexivity. }
      assert (Q : q_groups (p_sql p) = gs /\ q_choice (p_sql p) = n_choice n /\ q_date (p_sql p) = date) by (rewrite PE, CN; auto).
      destruct Q as [Q1 [Q2 Q3]].
      pose proof (joined_date R col (c_nad c) (p_sql p) (source p) r (N p IP)) as JD. rewrite Q1, Q2, Q3, TE in JD.
      pose proof (fun cr g => joined_group R col (c_nad c) (p_sql p) (source p) r cr g (N p IP)) as JG. rewrite Q1 in JG.
      assert (NU : n_nulls (c_nad c) = n_nulls n) by (rewrite CN; reflexivity). unfold usable in JD. rewrite NU in JD.
      (* window groupings *)
      assert (G : forall cr, joined R col (c_nad c) (p_sql p) (source p) r = Some cr ->
                (forallb (fun fa : fld * string => eq3 (col (fst fa) r) (cell cr (snd fa))) wg = true
                 <-> forall l g f, n_groupings n = Some l -> In g l -> get_field (qualify (m_view m) g) = Ok f -> col f r <> None)).
      { intros cr J.
        assert (W : Forall2 (fun g fa => get_field (qualify (m_view m) g) = Ok (fst fa) /\ snd fa = replace "." "_" (qualify (m_view m) g)) (own_groupings n) wg).
        { apply mapM_ok in WG. change (match n_groupings (qualified (m_view m) n) with Some l => l | None => [] end) with (own_groupings (qualified (m_view m) n)) in WG.
          rewrite own_qualified in WG. clear - WG. remember (own_groupings n) as l eqn:E. clear E. revert wg WG. induction l as [|g l IH]; intros wg WG; inversion WG as [|? fa ? wg' H T]; subst; constructor.
          - apply bind_ok in H. destruct H as [f [H1 H2]]. injection H2 as <-. auto.
          - now apply IH. }
        assert (X : forall g f, In g (own_groupings n) -> get_field (qualify (m_view m) g) = Ok f -> cell cr (replace "." "_" (qualify (m_view m) g)) = col f r).
        { intros g f I E. unfold own_groupings in I. destruct (n_groupings n) as [l|] eqn:NG; [|destruct I].
          destruct (CAN l g f eq_refl I E) as [ID [D1 D2]]. rewrite <- ID, (id_replaced f D1 D2). apply JG; [|exact J]. apply WF. left. exists l, g. auto. }
        rewrite forallb_forall. split.
        - intros H l g f NG I E. assert (IO : In g (own_groupings n)) by (unfold own_groupings; now rewrite NG).
          destruct (Forall2_In_l _ _ _ W g IO) as [fa [IW [E1 E2]]]. specialize (H fa IW). rewrite E2, (X g _ IO E1) in H.
          assert (fst fa = f) by congruence. subst f. destruct (col (fst fa) r); [discriminate|discriminate H].
        - intros H fa IW. destruct (Forall2_In_r _ _ _ W fa IW) as [g [IO [E1 E2]]]. rewrite E2, (X g _ IO E1).
          assert (NN : col (fst fa) r <> None). { unfold own_groupings in IO. destruct (n_groupings n) as [l|] eqn:NG; [|destruct IO]. apply (H l g (fst fa) eq_refl IO E1). }
          destruct (col (fst fa) r) as [z|]; [cbn; apply Z.eqb_refl|congruence]. }
      destruct (joined R col (c_nad c) (p_sql p) (source p) r) as [cr|] eqn:J.
      - cbn [forallb fst snd]. rewrite andb_true_iff, (G cr eq_refl). rewrite JD. tauto.
      - split; [discriminate|]. intros [[H1 _] H2]. apply JD. split; assumption.
    Qed.

    Definition total (f : R -> option Q) (l : list R) : Q := fold_right (fun r s => match f r with Some q => (q + s)%Q | None => s end) 0%Q l.
    (** When the sub queries read the query's own rows: the sum over any group of the result is the sum over the group's
        rows dated last (first) in their window *)
    Theorem C54_sum st metrics dims ps st' ms m n w date :
      parts st metrics dims = Ok (ps, st') -> concatM refs metrics = Ok ms -> In m ms -> assoc (m_id m) st = Some n ->
      case_conds get_field m n = Ok w -> get_field (qualify (m_view m) (n_name n)) = Ok date -> well_named st ps ms m n date ->
      exists gs, (forall f, In f gs <-> window_field m n dims f) /\
        forall (rows : list R) (value : R -> option Q) (group kept : R -> bool),
          (forall r, In r rows -> (kept r = true <-> comparable m n gs r /\
             exists d, col date r = Some d /\ forall r' e, In r' rows -> same R col gs r r' -> col date r' = Some e -> at_least (n_choice n) d e)) ->
          (fold_right (fun x s => match (if case_true R col w x then value (fst x) else Some 0%Q) with Some q => (q + s)%Q | None => s end) 0%Q
             (filter (fun x => group (fst x)) (join_all R col (fun _ => rows) ps (start rows)))
           == total value (filter kept (filter group rows)))%Q.
    Proof.
      intros P M IM A CC DATE W. destruct (C54_window _ _ _ _ _ _ _ _ _ _ P M IM A CC DATE W) as [p [gs [IP [WF H]]]].
      exists gs. split; [exact WF|]. intros rows value group kept K.
      pose proof (C54_rows_once _ _ _ _ _ P (proj1 (proj2 (proj2 W))) (fun _ => rows) rows) as ONCE.
      specialize (H (fun _ => rows) rows).
      assert (C : forall x, In x (join_all R col (fun _ => rows) ps (start rows)) -> case_true R col w x = kept (fst x)).
      { intros x I. assert (IR : In (fst x) rows) by (rewrite <- ONCE; now apply in_map). specialize (H x I). specialize (K (fst x) IR).
        destruct (case_true R col w x) eqn:E1, (kept (fst x)) eqn:E2; try reflexivity.
        - symmetry. apply K. destruct (proj1 H eq_refl) as [H1 [d [D [_ B]]]]. split; [exact H1|]. exists d. auto.
        - apply H. destruct (proj1 K eq_refl) as [H1 [d [D B]]]. split; [exact H1|]. exists d. split; [exact D|]. split; [|exact B].
          exists (fst x). split; [exact IR|]. split; [intros f _; reflexivity|exact D]. }
      clear H K. assert (E : filter kept (filter group rows) = filter kept (filter group (map fst (join_all R col (fun _ => rows) ps (start rows))))) by (now rewrite ONCE). rewrite E. clear E. revert C. generalize (join_all R col (fun _ => rows) ps (start rows)). intros l C. clear ONCE.
      induction l as [|x l IH]; [reflexivity|]. cbn [map filter].
      assert (IHl := IH (fun y Y => C y (or_intror Y))). destruct (group (fst x)); [|exact IHl]. cbn [filter fold_right].
      rewrite (C x (or_introl eq_refl)). destruct (kept (fst x)); cbn [total fold_right].
      - destruct (value (fst x)) as [q|]; [|exact IHl]. rewrite IHl. reflexivity.
      - rewrite IHl. apply Qplus_0_l.
    Qed.
  End Rows.

  (** ** Later queries *)
  Definition seen (st : store) (m : meas) : option nad := option_map (qualified (m_view m)) (assoc (m_id m) st).
  Definition no_empty (st : store) : Prop := forall k n, In (k, n) st -> n_groupings n <> Some [].
  Definition plain_views : Prop := forall t l m, refs t = Ok l -> In m l -> has_char dot (m_view m) = false.
  Lemma assoc_put st k n k' : assoc k' (put st k n) = if String.eqb k' k then option_map (fun _ => n) (assoc k st) else assoc k' st.
  Proof.
    induction st as [|[k0 n0] st IH]; cbn [put map assoc].
    - destruct (String.eqb k' k); reflexivity.
    - cbn [fst]. unfold put in IH. destruct (String.eqb k0 k) eqn:E0.
      + apply String.eqb_eq in E0. subst k0. cbn [assoc]. rewrite IH. destruct (String.eqb k' k) eqn:E1; [now rewrite String.eqb_refl|reflexivity].
      + cbn [assoc]. rewrite IH. rewrite (String.eqb_sym k k0), E0. destruct (String.eqb k' k0) eqn:E1; [|reflexivity].
        apply String.eqb_eq in E1. subst k'. now rewrite E0.
  Qed.
  Lemma id_view m m' : has_char dot (m_view m) = false -> has_char dot (m_view m') = false -> m_id m = m_id m' -> m_view m = m_view m'.
  Proof. unfold m_id. intros A B E. apply (sep_inj dot _ _ _ _ A B) in E. tauto. Qed.
  Lemma leave_seen dims cs : forall st, no_empty st ->
    (forall c, In c cs -> seen st (c_meas c) = Some (c_nad c) /\ has_char dot (m_view (c_meas c)) = false) ->
    no_empty (fold_left (leave get_field dims) cs st) /\
    forall m, has_char dot (m_view m) = false -> seen (fold_left (leave get_field dims) cs st) m = seen st m.
  Proof.
    induction cs as [|c cs IH]; intros st NE H; cbn [fold_left]; [split; auto|].
    destruct (H c (or_introl eq_refl)) as [SC VC].
    assert (EX : forall a, extended (c_nad c) a = c_nad c).
    { intros a. unfold seen in SC. destruct (assoc (m_id (c_meas c)) st) as [n|] eqn:A; [|discriminate]. injection SC as SC.
      apply assoc_In in A. specialize (NE _ _ A). unfold extended. rewrite <- SC. cbn. destruct (n_groupings n) as [[|g gs]|]; [congruence|reflexivity|reflexivity]. }
    assert (NC : n_groupings (c_nad c) <> Some []).
    { unfold seen in SC. destruct (assoc (m_id (c_meas c)) st) as [n|] eqn:A; [|discriminate]. injection SC as SC.
      apply assoc_In in A. specialize (NE _ _ A). rewrite <- SC. cbn. destruct (n_groupings n) as [[|g gs]|]; [congruence|discriminate|discriminate]. }
    assert (S1 : no_empty (leave get_field dims st c) /\ forall m, has_char dot (m_view m) = false -> seen (leave get_field dims st c) m = seen st m).
    { unfold leave. destruct (appended get_field dims c) as [a|e]; [|split; auto]. rewrite EX. split.
      - intros k n I. unfold put in I. apply in_map_iff in I. destruct I as [[k0 n0] [E I]]. cbn [fst] in E. destruct (String.eqb k0 _).
        + injection E as <- <-. exact NC.
        + injection E as <- <-. exact (NE _ _ I).
      - intros m VM. unfold seen. rewrite assoc_put. destruct (String.eqb_spec (m_id m) (m_id (c_meas c))) as [E|E]; [|reflexivity].
        rewrite E. pose proof (id_view _ _ VM VC E) as VV. unfold seen in SC. destruct (assoc (m_id (c_meas c)) st) as [n|]; [|discriminate].
        cbn [option_map] in *. rewrite VV. injection SC as SC. rewrite SC. f_equal. rewrite <- SC. apply qualified_idem. }
    destruct S1 as [S1 S2]. destruct (IH (leave get_field dims st c) S1) as [T1 T2].
    - intros c' I. destruct (H c' (or_intror I)) as [SC' VC']. split; [|exact VC']. rewrite S2; assumption.
    - split; [exact T1|]. intros m VM. rewrite T2, S2; auto.
  Qed.
  Lemma query_seen st metrics dims ps st' : plain_views -> no_empty st -> parts st metrics dims = Ok (ps, st') ->
    no_empty st' /\ forall m, has_char dot (m_view m) = false -> seen st' m = seen st m.
  Proof.
    intros PV NE P. destruct (parts_ok _ _ _ _ _ P) as [ms [cs [M [FS [_ [_ [_ ->]]]]]]]. apply leave_seen; [exact NE|].
    intros c I. pose proof (proj1 (Forall_forall _ _) FS c I) as [IM [n [A [CN _]]]]. split.
    - unfold seen. rewrite A. cbn. congruence.
    - apply (proj1 (concatM_ok_In _ _ _ M _)) in IM. destruct IM as [t [l [_ [E I']]]]. exact (PV _ _ _ E I').
  Qed.
  Lemma parts_seen st st' metrics dims : plain_views -> (forall m, has_char dot (m_view m) = false -> seen st' m = seen st m) ->
    (r <- parts st' metrics dims ;; Ok (fst r)) = (r <- parts st metrics dims ;; Ok (fst r)).
  Proof.
    intros PV S. unfold NonAdditive_Model.parts, collect. destruct (concatM refs metrics) as [ms|e] eqn:M; [|reflexivity]. cbn [bind].
    assert (F : forall acc, fold_left (add_cte st') ms acc = fold_left (add_cte st) ms acc).
    { assert (V : forall m, In m ms -> has_char dot (m_view m) = false).
      { intros m I. apply (proj1 (concatM_ok_In _ _ _ M _)) in I. destruct I as [t [l [_ [E I']]]]. exact (PV _ _ _ E I'). }
      clear M. induction ms as [|m ms IH]; intros acc; [reflexivity|]. cbn [fold_left]. rewrite (IH (fun x X => V x (or_intror X))). f_equal.
      specialize (S m (V m (or_introl eq_refl))). unfold seen in S. unfold add_cte. destruct (assoc (m_id m) st') as [a|], (assoc (m_id m) st) as [b|]; try discriminate S; [|reflexivity].
      cbn [option_map] in S. assert (S' : qualified (m_view m) a = qualified (m_view m) b) by congruence. now rewrite S'. }
    rewrite F. destruct (mapM _ _); reflexivity.
  Qed.
  (** A sequence of queries on one project; a query that fails leaves the definitions as they are *)
  Definition run (st : store) (qs : list (list string * list string)) : store :=
    fold_left (fun st q => match parts st (fst q) (snd q) with Ok (_, st') => st' | Err _ => st end) qs st.
  (** Unless some measure is given an empty list of window groupings, a query's sub queries, joins and CASE conditions
      do not depend on the queries before it *)
  Theorem C54_history st qs : plain_views -> no_empty st ->
    (forall metrics dims, (r <- parts (run st qs) metrics dims ;; Ok (fst r)) = (r <- parts st metrics dims ;; Ok (fst r)))
    /\ forall m n, has_char dot (m_view m) = false -> assoc (m_id m) st = Some n ->
         exists n', assoc (m_id m) (run st qs) = Some n' /\ case_conds get_field m n' = case_conds get_field m n.
  Proof.
    intros PV NE. assert (S : no_empty (run st qs) /\ forall m, has_char dot (m_view m) = false -> seen (run st qs) m = seen st m).
    { revert st NE. induction qs as [|q qs IH]; intros st NE; [split; auto|]. cbn [run fold_left].
      destruct (parts st (fst q) (snd q)) as [[ps st']|e] eqn:P; [|now apply IH].
      destruct (query_seen _ _ _ _ _ PV NE P) as [N1 S1]. destruct (IH st' N1) as [N2 S2]. split; [exact N2|]. intros m V. unfold run in S2. rewrite S2, S1; auto. }
    destruct S as [_ S]. split; [intros metrics dims; now apply parts_seen|].
    intros m n V A. specialize (S m V). unfold seen in S. rewrite A in S. destruct (assoc (m_id m) (run st qs)) as [n'|]; [|discriminate].
    exists n'. split; [reflexivity|]. cbn [option_map] in S. assert (S' : qualified (m_view m) n' = qualified (m_view m) n) by congruence. unfold case_conds. now rewrite S'.
  Qed.
End Query.
Print Assumptions C54_rows_once.
Print Assumptions C54_window.
Print Assumptions C54_sum.
Print Assumptions C54_history.

(** ** A concrete project *)
Definition ex_fields : list (string * fld) :=
  [ ("mrr.record_raw", Fld "mrr" "record" "record_raw"); ("mrr.record_week", Fld "mrr" "record" "record_week");
    ("mrr.plan", Fld "mrr" "plan" "plan"); ("plan", Fld "mrr" "plan" "plan"); ("mrr.account", Fld "mrr" "account" "account");
    ("calls.record_date", Fld "calls" "record" "record_date"); ("dates.day_raw", Fld "dates" "day" "day_raw") ].
Definition ex_get (s : string) : res fld := match assoc s ex_fields with Some f => Ok f | None => Err AccessDenied end.
Definition ex_refs (s : string) : res (list meas) :=
  match field_name_parts s with (_, Some v, n) => Ok [Meas v n] | _ => Err AccessDenied end.
Definition ex_row := list (string * option Z).
Definition ex_col (f : fld) (r : ex_row) : option Z := cell r (f_id f).
Definition ex_r (plan account week day value : option Z) : ex_row :=
  [("mrr.plan", plan); ("mrr.account", account); ("mrr.record_week", week); ("mrr.record_raw", day); ("value", value)].
Definition plain_nad : nad := Nad "record_raw" CMax None true false.
Definition ex_store : store :=
  [ ("mrr.last", plain_nad); ("mrr.by_account", Nad "record_raw" CMax (Some ["account"]) true false);
    ("mrr.first", Nad "record_raw" CMin None false false); ("mrr.nulls", Nad "record_raw" CMax (Some ["account"]) true true);
    ("mrr.empty", Nad "record_raw" CMax (Some []) true false); ("mrr.other", Nad "dates.day_raw" CMax None true false);
    ("a.m", plain_nad); ("b.m", Nad "mrr.record_raw" CMax None true false) ].
Definition ex_rows : list ex_row :=
  [ ex_r (Some 1) (Some 10) (Some 1) (Some 3) (Some 100); ex_r (Some 1) (Some 11) (Some 1) (Some 5) (Some 7);
    ex_r (Some 2) (Some 10) (Some 1) (Some 5) (Some 20); ex_r (Some 2) (Some 12) (Some 2) (Some 9) (Some 30);
    ex_r None (Some 12) (Some 2) (Some 8) (Some 4) ]%Z.
(** the rows the CASE of a measure keeps, by value *)
Definition ex_kept (st : store) (dims : list string) (m : meas) (rows : list ex_row) : res (list (option Z)) :=
  x <- parts ex_get ex_refs true st [m_id m] dims ;;
  match assoc (m_id m) st with
  | None => Err KeyError
  | Some n =>
      w <- case_conds ex_get m n ;;
      Ok (map (fun y => cell (fst y) "value") (filter (case_true _ ex_col w) (join_all _ ex_col (fun _ => rows) (fst x) (start _ rows))))
  end.

(** Two measures of one query, five rows: by plan the last day of plan 1 is day 5, that of plan 2 day 9; by account and
    plan every account's own last day counts. *)
Example C54_case : exists ps st' w date ms,
  parts ex_get ex_refs true ex_store ["mrr.last"; "mrr.by_account"] ["mrr.plan"] = Ok (ps, st') /\ List.length ps = 2
  /\ concatM ex_refs ["mrr.last"; "mrr.by_account"] = Ok ms /\ In (Meas "mrr" "by_account") ms
  /\ case_conds ex_get (Meas "mrr" "by_account") (Nad "record_raw" CMax (Some ["account"]) true false) = Ok w
  /\ ex_get "mrr.record_raw" = Ok date
  /\ well_named ex_get ex_store ps ms (Meas "mrr" "by_account") (Nad "record_raw" CMax (Some ["account"]) true false) date
  /\ ex_kept ex_store ["mrr.plan"] (Meas "mrr" "last") ex_rows = Ok [Some 7; Some 30]%Z
  /\ ex_kept ex_store ["mrr.plan"] (Meas "mrr" "by_account") ex_rows = Ok [Some 100; Some 7; Some 20; Some 30]%Z
  /\ ex_kept ex_store ["mrr.record_week"; "mrr.plan"] (Meas "mrr" "first") ex_rows = Ok [Some 100; Some 4]%Z.
Proof.
  do 5 eexists. split; [vm_compute; reflexivity|]. split; [reflexivity|]. split; [vm_compute; reflexivity|]. split; [right; left; reflexivity|].
  split; [vm_compute; reflexivity|]. split; [vm_compute; reflexivity|]. split.
  - split; [reflexivity|]. split.
    + intros m' n' [<-|[<-|[]]] A; vm_compute in A; injection A as <-; vm_compute; congruence.
    + split.
      * intros p [<-|[<-|[]]]; vm_compute; repeat constructor; cbn; intuition discriminate.
      * intros l g f E. injection E as <-. intros [<-|[]] G. vm_compute in G. injection G as <-. vm_compute. auto.
  - vm_compute. auto.
Qed.
Example C54_history_case : plain_views ex_refs /\ no_empty [("mrr.last", plain_nad); ("mrr.by_account", Nad "record_raw" CMax (Some ["account"]) true false)]
  /\ run ex_get ex_refs true [("mrr.last", plain_nad)] [(["mrr.last"], ["mrr.plan"])] <> [("mrr.last", plain_nad)].
Proof.
  split; [|split].
  - intros t l m E I. unfold ex_refs in E. destruct (field_name_parts t) as [[o v] n] eqn:P. destruct v as [v|]; [|discriminate]. injection E as <-. destruct I as [<-|[]]. cbn.
    unfold field_name_parts in P. destruct (Nat.eqb (count_char dot t) 2), (Nat.eqb (count_char dot t) 1); destruct (split_char dot t) as [|x [|y [|z [|? ?]]]] eqn:S; try discriminate P.
    all: injection P as <- <- <-; apply (split_char_pieces dot t); rewrite S; cbn; auto.
  - intros k n [E|[E|[]]]; injection E as <- <-; discriminate.
  - vm_compute. discriminate.
Qed.

(** ** What the code gets wrong *)
(** A group whose value is NULL shows 0: its last row is joined to nothing (unless nulls_are_equal is set). *)
Theorem C54_null_group_refuted : exists rows r, In r rows /\ ex_col (Fld "mrr" "plan" "plan") r = None
  /\ extreme _ ex_col CMax (Fld "mrr" "record" "record_raw") [Fld "mrr" "plan" "plan"] rows r
  /\ ex_kept ex_store ["mrr.plan"] (Meas "mrr" "last") rows = Ok [].
Proof.
  exists [ex_r None (Some 1%Z) None (Some 2%Z) (Some 4%Z)], (ex_r None (Some 1%Z) None (Some 2%Z) (Some 4%Z)).
  split; [now left|]. split; [reflexivity|]. split; [|vm_compute; reflexivity].
  exists 2%Z. split; [reflexivity|]. split.
  - eexists. split; [left; reflexivity|]. split; [intros f _; reflexivity|reflexivity].
  - intros r' e [<-|[]] _ E. vm_compute in E. injection E as <-. cbn. lia.
Qed.
(** nulls_are_equal does not help when a window grouping is NULL: the join finds the row, the CASE does not. *)
Theorem C54_nulls_are_equal_refuted : exists n rows r, assoc "mrr.nulls" ex_store = Some n /\ n_nulls n = true /\ In r rows
  /\ extreme _ ex_col CMax (Fld "mrr" "record" "record_raw") [Fld "mrr" "account" "account"] rows r
  /\ ex_kept ex_store [] (Meas "mrr" "nulls") rows = Ok [].
Proof.
  eexists. exists [ex_r (Some 1%Z) None None (Some 2%Z) (Some 4%Z)], (ex_r (Some 1%Z) None None (Some 2%Z) (Some 4%Z)).
  split; [vm_compute; reflexivity|]. split; [reflexivity|]. split; [now left|]. split; [|vm_compute; reflexivity].
  exists 2%Z. split; [reflexivity|]. split.
  - eexists. split; [left; reflexivity|]. split; [intros f _; reflexivity|reflexivity].
  - intros r' e [<-|[]] _ E. vm_compute in E. injection E as <-. cbn. lia.
Qed.
(** A date of another view: whatever the names, the CASE asks for a column under the measure's view, the sub query has it
    under the date's view. *)
Theorem C54_other_view_refuted : forall m n f gs c q, c_nad c = n -> cte_sql (fun _ => Ok f) c gs = Ok q -> f_view f <> m_view m ->
  na_alias m n <> q_temp q.
Proof.
  intros m n f gs c q <- Q V E. unfold cte_sql in Q. cbn [bind] in Q. injection Q as <-. cbn [q_temp] in E.
  apply V. rewrite lower_app, lower_choice in E. unfold na_alias in E.
  apply (append_inj_r ("_" ++ choice_text (n_choice (c_nad c)) ++ "_" ++ lower (last_part (n_name (c_nad c))))). symmetry. exact E.
Qed.
(** Measures of the same name in two views share one sub query: the second asks it for a column it does not have. *)
Theorem C54_same_name_refuted : exists ps st' w p f a,
  parts ex_get ex_refs true [("mrr.m", plain_nad); ("b.m", Nad "mrr.record_raw" CMax None true false)] ["mrr.m"; "b.m"] [] = Ok (ps, st')
  /\ case_conds ex_get (Meas "b" "m") (Nad "mrr.record_raw" CMax None true false) = Ok w
  /\ ps = [p] /\ p_cte p = w_cte w /\ In (f, a) (w_conds w) /\ ~ one_column (p_sql p) a.
Proof.
  do 6 eexists. split; [vm_compute; reflexivity|]. split; [vm_compute; reflexivity|]. split; [reflexivity|]. split; [reflexivity|].
  split; [left; reflexivity|]. vm_compute. discriminate.
Qed.
(** A dimension written without its view, which is also a window grouping: the sub query has the column twice. *)
Theorem C54_two_spellings_refuted : exists ps st' p,
  parts (fun s => ex_get (if String.eqb s "account" then "mrr.account" else s)) ex_refs true ex_store ["mrr.by_account"] ["account"] = Ok (ps, st')
  /\ ps = [p] /\ ~ one_column (p_sql p) "mrr_account".
Proof. do 3 eexists. split; [vm_compute; reflexivity|]. split; [reflexivity|]. vm_compute. discriminate. Qed.
(** With an empty list of window groupings the dimensions of a query stay in the definition: the next query, without
    dimensions, aggregates the last rows of each plan instead of the last rows. *)
Theorem C54_history_refuted : exists st',
  parts ex_get ex_refs true ex_store ["mrr.empty"] ["mrr.plan"] = Ok (st')
  /\ ex_kept ex_store [] (Meas "mrr" "empty") ex_rows = Ok [Some 30]%Z
  /\ ex_kept (snd st') [] (Meas "mrr" "empty") ex_rows = Ok [Some 7; Some 30]%Z.
Proof. eexists. split; [vm_compute; reflexivity|]. split; vm_compute; reflexivity. Qed.
(** A window that should not depend on the query's dimensions does on those that merely have the date's name, in any view. *)
Theorem C54_unaware_refuted : exists n, assoc "mrr.first" ex_store = Some n /\ n_aware n = false
  /\ window_field ex_get (Meas "mrr" "first") n ["calls.record_date"] (Fld "calls" "record" "record_date").
Proof.
  eexists. split; [vm_compute; reflexivity|]. split; [reflexivity|]. right. right. split; [reflexivity|].
  exists "calls.record_date", (Fld "mrr" "record" "record_raw"). repeat split. now left.
Qed.
Print Assumptions C54_null_group_refuted.
Print Assumptions C54_nulls_are_equal_refuted.
Print Assumptions C54_other_view_refuted.
Print Assumptions C54_same_name_refuted.
Print Assumptions C54_two_spellings_refuted.
Print Assumptions C54_history_refuted.
Print Assumptions C54_unaware_refuted.

(** The join of a sub query always has a condition: without groups it is the literal true, with groups one condition for each of them. *)
Theorem C54_join_condition : forall sf n gs,
  (gs = [] -> on_conds sf n gs = [JTrue]) /\ (gs <> [] -> List.length (on_conds sf n gs) = List.length gs) /\ on_conds sf n gs <> [].
Proof.
  intros sf n gs. split; [intros ->; reflexivity|]. split.
  - intros N. destruct gs as [|g gs]; [congruence|]. unfold on_conds. apply map_length.
  - destruct gs; discriminate.
Qed.
Print Assumptions C54_join_condition.

(** The names the generated SQL uses: the column of the chosen date is the measure's view, the word of the choice and the
    date's name, the sub query cte, the measure's name and the date's name; the date's name is what follows its last dot, in
    lower case. *)
Definition bare_name (full bare : string) : Prop :=
  has_char dot bare = false /\ (full = bare \/ exists v, full = (v ++ "." ++ bare)%string).
Lemma last_part_bare full bare : bare_name full bare -> last_part full = bare.
Proof.
  intros [N [-> | [v ->]]]; unfold last_part; [now rewrite (split_char_nochar _ _ N)|].
  change (v ++ "." ++ bare)%string with (v ++ String dot bare)%string.
  induction v as [|c v IH]; cbn [append].
  - replace (split_char dot (String dot bare)) with ("" :: split_char dot bare) by (cbn [split_char]; now rewrite Ascii.eqb_refl).
    now rewrite (split_char_nochar _ _ N).
  - cbn [split_char]. destruct (Ascii.eqb c dot).
    + destruct (split_char dot (v ++ String dot bare)) eqn:E; [pose proof (split_char_length dot (v ++ String dot bare)) as L; rewrite E in L; discriminate L|]. exact IH.
    + destruct (split_char dot (v ++ String dot bare)) as [|h t] eqn:E; [pose proof (split_char_length dot (v ++ String dot bare)) as L; rewrite E in L; discriminate L|].
      destruct t as [|h' t]; [|exact IH]. exfalso. pose proof (split_char_length dot (v ++ String dot bare)) as L. rewrite E in L. cbn in L.
      assert (C : forall u, count_char dot (u ++ String dot bare)%string <> 0).
      { clear. induction u as [|x u IH]; cbn [append count_char]; [rewrite Ascii.eqb_refl; discriminate|]. destruct (Ascii.eqb x dot); [discriminate|exact IH]. }
      apply (C v). injection L as L. symmetry. exact L.
Qed.
Theorem C54_names : forall m n bare, bare_name (n_name n) bare ->
  na_cte m n = ("cte_" ++ m_name m ++ "_" ++ lower bare)%string
  /\ (n_choice n = CMax -> na_alias m n = (m_view m ++ "_max_" ++ lower bare)%string)
  /\ (n_choice n = CMin -> na_alias m n = (m_view m ++ "_min_" ++ lower bare)%string).
Proof.
  intros m n bare B. unfold na_cte, na_alias. rewrite (last_part_bare _ _ B).
  split; [reflexivity|]. split; intros ->; reflexivity.
Qed.
Print Assumptions C54_names.
Example C54_names_case : bare_name "mrr.Record_Raw" "Record_Raw"
  /\ na_cte (Meas "mrr" "end") (Nad "mrr.Record_Raw" CMin None true false) = "cte_end_record_raw".
Proof. split; [split; [reflexivity|right; now exists "mrr"]|reflexivity]. Qed.
