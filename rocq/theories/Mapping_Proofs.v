(** Proofs about mapped names: the choice of a field, replacement in lists and clauses, whole runs. *)
From Verif Require Import PyBase PyStr PySort PyReplace Core_Model Mapping_Model.
Local Open Scope string_scope.
Local Open Scope list_scope.
Local Open Scope nat_scope.

(** * Graphs *)
Definition shares (a b : list string) : Prop := exists g, In g a /\ In g b.
Lemma meets_spec a b : meets a b = true <-> shares a b.
Proof. unfold meets, shares. rewrite existsb_exists. split; intros [g [A B]]; exists g; rewrite mem_In in *; auto. Qed.
Lemma meets_false a b : meets a b = false <-> ~ shares a b.
Proof. rewrite <- meets_spec. destruct (meets a b); split; congruence. Qed.
Lemma usable_spec l u : usable l = Ok u -> forall g, In g u <-> forall e, In e l -> In g (snd e).
Proof.
  destruct l as [|[k h] l]; [discriminate|]. intros E. injection E as <-. intros g. rewrite filter_In, forallb_forall. split.
  - intros [H A] e [<-|I]; [exact H|]. apply mem_In. apply A. exact I.
  - intros A. split; [apply (A (k, h)); left; reflexivity|]. intros e I. apply mem_In. apply A. right. exact I.
Qed.
Lemma joinable_In g u : In g (joinable_of u) <-> In g u /\ contains "merged_result" g = false.
Proof. unfold joinable_of. rewrite filter_In, negb_true_iff. reflexivity. Qed.

Section Choice.
  Variable get_field : string -> res mfld.
  Notation det := (determine_aux get_field).
  Definition gate (J : list string) (x : string) : list mfld := match get_field x with Ok f => if meets (fl_graphs f) J then [f] else [] | Err _ => [] end.
  Definition gate2 (J U : list string) (x : string) : list mfld :=
    match get_field x with Ok f => if meets (fl_graphs f) J then [] else if meets (fl_graphs f) U then [f] else [] | Err _ => [] end.
  Lemma det_eq fields J U js ms : (forall x, In x fields -> exists f, get_field x = Ok f) ->
    det fields J U js ms = match js ++ flat_map (gate J) fields, ms ++ flat_map (gate2 J U) fields with f :: _, _ => Ok f | [], f :: _ => Ok f | [], [] => Err QueryError end.
  Proof.
    revert js ms. induction fields as [|x fields IH]; intros js ms H; cbn [determine_aux flat_map]; [rewrite !app_nil_r; reflexivity|].
    destruct (H x (or_introl eq_refl)) as [f F]. rewrite F. cbn [bind]. assert (H' : forall y, In y fields -> exists f, get_field y = Ok f) by (intros y I; apply H; right; exact I).
    unfold gate at 1, gate2 at 1. rewrite F. destruct (meets (fl_graphs f) J); [rewrite IH by exact H'; rewrite <- app_assoc; reflexivity|].
    destruct (meets (fl_graphs f) U); rewrite IH by exact H'; [rewrite <- app_assoc|]; reflexivity.
  Qed.
  Lemma det_looked_up fields J U js ms f : det fields J U js ms = Ok f -> forall x, In x fields -> exists g, get_field x = Ok g.
  Proof.
    revert js ms. induction fields as [|y fields IH]; intros js ms E x I; [destruct I|]. cbn [determine_aux] in E. apply bind_ok in E. destruct E as [h [H E]].
    destruct I as [<-|I]; [exists h; exact H|]. destruct (meets (fl_graphs h) J); [eapply IH; eassumption|]. destruct (meets (fl_graphs h) U); eapply IH; eassumption.
  Qed.
  Lemma gate_head (p : string -> list mfld) fields f r : flat_map p fields = f :: r -> (forall x, List.length (p x) <= 1) ->
    exists pre x post, fields = pre ++ x :: post /\ p x = [f] /\ forall y, In y pre -> p y = [].
  Proof.
    induction fields as [|x fields IH]; [discriminate|]. cbn [flat_map]. intros E L. specialize (L x) as Lx. destruct (p x) as [|h [|h' t]] eqn:P; [|cbn in E|cbn in Lx; lia].
    - destruct (IH E L) as [pre [y [post [-> [PY B]]]]]. exists (x :: pre), y, post. split; [reflexivity|]. split; [exact PY|]. intros z [<-|I]; [exact P | apply B; exact I].
    - injection E as -> _. exists [], x, fields. split; [reflexivity|]. split; [exact P|]. intros z [].
  Qed.
  Lemma gate_nil (p : string -> list mfld) fields : flat_map p fields = [] -> forall x, In x fields -> p x = [].
  Proof. induction fields as [|y fields IH]; intros E x I; [destruct I|]. cbn [flat_map] in E. apply app_eq_nil in E. destruct E as [A B]. destruct I as [<-|I]; [exact A | apply IH; assumption]. Qed.
End Choice.

(** * Replacement in lists *)
Definition sub1 (n id x : string) : string := if String.eqb x n then id else x.
Lemma replace_first_map n id l : count_occ string_dec l n <= 1 -> replace_first n id l = map (sub1 n id) l.
Proof.
  induction l as [|x l IH]; intros C; [reflexivity|]. cbn [replace_first map]. unfold sub1 at 1. destruct (String.eqb_spec x n) as [->|D].
  - f_equal. cbn [count_occ] in C. destruct (string_dec n n); [|congruence]. assert (N : count_occ string_dec l n = 0) by lia. apply count_occ_not_In in N.
    clear - N. induction l as [|y l IH]; [reflexivity|]. cbn [map]. rewrite <- IH by (intros I; apply N; right; exact I). f_equal. unfold sub1. destruct (String.eqb_spec y n) as [->|]; [exfalso; apply N; left; reflexivity | reflexivity].
  - f_equal. apply IH. cbn [count_occ] in C. destruct (string_dec x n); [congruence | exact C].
Qed.
Lemma map_sub1_id n id l : ~ In n l -> map (sub1 n id) l = l.
Proof. induction l as [|y l IH]; intros N; [reflexivity|]. cbn [map]. rewrite IH by (intros I; apply N; right; exact I). f_equal. unfold sub1. destruct (String.eqb_spec y n) as [->|]; [exfalso; apply N; left; reflexivity | reflexivity]. Qed.
Lemma guarded_replace n id l : count_occ string_dec l n <= 1 -> (if mem n l then replace_first n id l else l) = map (sub1 n id) l.
Proof. intros C. destruct (mem n l) eqn:M; [apply replace_first_map; exact C|]. symmetry. apply map_sub1_id. apply mem_false. exact M. Qed.

(** * Replacement in clauses *)
Section Clause.
  Variable R : Type.
  Variable has_group_by : R -> bool.
  (** No dict has both keys *)
  Fixpoint regular (o : robj R) : Prop :=
    match o with
    | RDict (Some _) (Some _) _ => False
    | RDict None (Some cs) _ => (fix all (l : list (robj R)) : Prop := match l with [] => True | x :: r => regular x /\ all r end) cs
    | _ => True
    end.
  Lemma regular_group cs r : regular (RDict None (Some cs) r) <-> Forall regular cs.
  Proof.
    cbn [regular]. induction cs as [|x cs IH]; [split; auto|]. split.
    - intros [A B]. constructor; [exact A | apply IH; exact B].
    - intros F. inversion F; subst. split; [assumption | apply IH; assumption].
  Qed.
  Section Ind.
    Variable P : robj R -> Prop.
    Hypothesis HL : forall f r, P (RDict f None r).
    Hypothesis HG : forall f cs r, Forall P cs -> P (RDict f (Some cs) r).
    Fixpoint robj_ind' (o : robj R) : P o :=
      match o with
      | RDict f None r => HL f r
      | RDict f (Some cs) r => HG f cs r ((fix all (l : list (robj R)) : Forall P l := match l with [] => Forall_nil _ | x :: t => Forall_cons x (robj_ind' x) (all t) end) cs)
      end.
  End Ind.
  Notation lname := (leaf_name has_group_by).
  Lemma replace_regular n id o : regular o -> regular (replace_obj n id o).
  Proof.
    induction o as [f r|f cs r IH] using robj_ind'; [destruct f; auto|]. destruct f as [x|]; [intros []|]. cbn [replace_obj]. rewrite !regular_group.
    intros F. apply Forall_map. rewrite Forall_forall in *. auto.
  Qed.
  Lemma replace_leaves n id (o : robj R) : regular o -> leaves (replace_obj n id o) = map (replace_obj n id) (leaves o).
  Proof.
    induction o as [f r|f cs r IH] using robj_ind'; [intros _; destruct f; reflexivity|]. destruct f as [x|]; [intros []|]. cbn [replace_obj leaves]. rewrite regular_group. intros F.
    clear -IH F. induction cs as [|c cs IHc]; [reflexivity|]. inversion IH; subst. inversion F; subst. cbn [map flat_map]. rewrite map_app, <- IHc by assumption. f_equal. auto.
  Qed.
  Lemma leaves_leaf (o x : robj R) : In x (leaves o) -> exists f r, x = RDict f None r.
  Proof.
    induction o as [f r|f cs r IH] using robj_ind'; cbn [leaves]; [intros [<-|[]]; eauto|]. intros I. apply in_flat_map in I. destruct I as [c [C I]]. rewrite Forall_forall in IH. eapply IH; eassumption.
  Qed.
  Lemma leaf_name_replace n id f r : lname (replace_obj n id (RDict f None r)) = (l <- lname (RDict f None r) ;; Ok (map (sub1 n id) l)).
  Proof. destruct f as [x|]; cbn [replace_obj leaf_name]; destruct (has_group_by r); reflexivity. Qed.
  Lemma concat_names_replace n id (l : list (robj R)) : (forall x, In x l -> exists f r, x = RDict f None r) ->
    concatM lname (map (replace_obj n id) l) = (w <- concatM lname l ;; Ok (map (sub1 n id) w)).
  Proof.
    induction l as [|x l IH]; intros H; [reflexivity|]. cbn [map concatM]. destruct (H x (or_introl eq_refl)) as [f [r ->]]. rewrite leaf_name_replace.
    rewrite IH by (intros y I; apply H; right; exact I). destruct (lname (RDict f None r)) as [a|e]; cbn [bind]; [|reflexivity]. destruct (concatM lname l) as [w|e]; cbn [bind]; [|reflexivity]. rewrite map_app. reflexivity.
  Qed.
  Definition plain_clause (c : clause R) : Prop := match c with CText _ => False | CNone => True | CList l => Forall regular l end.
  Lemma replace_plain n id c : plain_clause c -> plain_clause (replace_clause n id c).
  Proof. destruct c as [t| |l]; cbn [replace_clause plain_clause]; auto. intros F. apply Forall_map. eapply Forall_impl; [|exact F]. intros o. apply replace_regular. Qed.
  Variable idents : string -> list string.
  Lemma clause_fields_replace n id c w : plain_clause c -> clause_fields has_group_by idents c = Ok w -> clause_fields has_group_by idents (replace_clause n id c) = Ok (map (sub1 n id) w).
  Proof.
    destruct c as [t| |l]; cbn [replace_clause plain_clause clause_fields]; [intros [] | intros _ E; injection E as <-; reflexivity|]. intros F E.
    assert (X : flat_map leaves (map (replace_obj n id) l) = map (replace_obj n id) (flat_map leaves l)).
    { clear E. induction l as [|o l IH]; [reflexivity|]. inversion F; subst. cbn [map flat_map]. rewrite map_app, IH by assumption. f_equal. apply replace_leaves. assumption. }
    rewrite X, concat_names_replace, E; [reflexivity|]. intros x I. apply in_flat_map in I. destruct I as [o [_ I]]. eapply leaves_leaf. exact I.
  Qed.
End Clause.

(** * Whole runs *)
Section Run.
  Variable R : Type.
  Variable has_group_by : R -> bool.
  Variable get_field : string -> res mfld.
  Variable get_mapped : string -> option mapping.
  Variable special : string -> bool.
  Variable n_measures : string -> res nat.
  Variable enum : list string -> list string.
  Variable idents : string -> list string.
  Notation cfields := (clause_fields has_group_by idents).
  Notation choice := (list (string * mfld)).

  Definition sub (s : choice) (x : string) : string := match assoc x s with Some f => fl_id f | None => x end.
  Lemma assoc_app {B} k (a b : list (string * B)) : assoc k (a ++ b) = match assoc k a with Some v => Some v | None => assoc k b end.
  Proof. induction a as [|[k' v] a IH]; [reflexivity|]. cbn [app assoc]. destruct (String.eqb k k'); [reflexivity | exact IH]. Qed.
  Lemma sub_step s n f x : assoc n s = None -> (forall k g, In (k, g) s -> fl_id g <> n) -> sub1 n (fl_id f) (sub s x) = sub (s ++ [(n, f)]) x.
  Proof.
    intros N D. unfold sub. rewrite assoc_app. destruct (assoc x s) as [g|] eqn:A.
    - apply assoc_In in A. specialize (D x g A). unfold sub1. destruct (String.eqb_spec (fl_id g) n); [contradiction | reflexivity].
    - cbn [assoc]. unfold sub1. destruct (String.eqb_spec x n) as [->|]; reflexivity.
  Qed.
  Lemma count_sub s n l : assoc n s = None -> (forall k g, In (k, g) s -> fl_id g <> n) -> count_occ string_dec (map (sub s) l) n = count_occ string_dec l n.
  Proof.
    intros N D. induction l as [|x l IH]; [reflexivity|]. cbn [map count_occ]. rewrite IH.
    destruct (string_dec (sub s x) n) as [E|E], (string_dec x n) as [F|F]; try reflexivity; exfalso.
    - unfold sub in E. destruct (assoc x s) as [g|] eqn:A; [apply assoc_In in A; exact (D x g A E) | congruence].
    - apply E. subst x. unfold sub. rewrite N. reflexivity.
  Qed.

  (** The query after the choices [s] *)
  Record image (q0 : query R) (w h o : list string) (s : choice) (q : query R) : Prop := Image {
    im_metrics : q_metrics q = map (sub s) (q_metrics q0);
    im_dims : q_dims q = map (sub s) (q_dims q0);
    im_where : plain_clause _ (q_where q) /\ cfields (q_where q) = Ok (map (sub s) w);
    im_having : plain_clause _ (q_having q) /\ cfields (q_having q) = Ok (map (sub s) h);
    im_order : plain_clause _ (q_order q) /\ cfields (q_order q) = Ok (map (sub s) o) }.
  Lemma guarded_clause s n f c w : assoc n s = None -> (forall k g, In (k, g) s -> fl_id g <> n) ->
    plain_clause _ c /\ cfields c = Ok (map (sub s) w) ->
    let c' := if mem n w then replace_clause n (fl_id f) c else c in plain_clause _ c' /\ cfields c' = Ok (map (sub (s ++ [(n, f)])) w).
  Proof.
    intros N D [P E]. cbn zeta. destruct (mem n w) eqn:M.
    - split; [apply replace_plain; exact P|]. rewrite (clause_fields_replace _ _ _ n (fl_id f) c _ P E), map_map. f_equal. apply map_ext. intros x. apply sub_step; assumption.
    - split; [exact P|]. rewrite E. f_equal. apply map_ext_in. intros x I. rewrite <- (sub_step s n f x N D). unfold sub1.
      destruct (String.eqb_spec (sub s x) n) as [X|]; [|reflexivity]. exfalso. apply mem_false in M. apply M. unfold sub in X.
      destruct (assoc x s) as [g|] eqn:A; [apply assoc_In in A; exfalso; exact (D x g A X) | subst x; exact I].
  Qed.
  Lemma image_step q0 w h o all s q n f q' : image q0 w h o s q -> NoDup (q_metrics q0) -> NoDup (q_dims q0) ->
    assoc n s = None -> (forall k g, In (k, g) s -> fl_id g <> n) -> replace_mapped (Names w h o all) n f q = Ok q' ->
    image q0 w h o (s ++ [(n, f)]) q' /\ q_forced q' = q_forced q /\ In n all.
  Proof.
    intros [IM ID IW IH IO] NM ND N D E. unfold replace_mapped in E. cbn [n_where n_having n_order n_all] in E. destruct (mem n all) eqn:A; [|discriminate]. injection E as <-.
    assert (L : forall l l0, l = map (sub s) l0 -> NoDup l0 -> (if mem n l then replace_first n (fl_id f) l else l) = map (sub (s ++ [(n, f)])) l0).
    { intros l l0 -> NL. rewrite guarded_replace; [rewrite map_map; apply map_ext; intros x; apply sub_step; assumption|]. rewrite count_sub by assumption. apply NoDup_count_occ. exact NL. }
    split; [|split; [reflexivity | apply mem_In; exact A]]. constructor; cbn [q_metrics q_dims q_where q_having q_order]; try (apply guarded_clause; assumption); apply L; assumption.
  Qed.
  Lemma image_forced q0 w h o s q b : image q0 w h o s q -> image q0 w h o s (set_forced b q).
  Proof. intros [A B C D E]. constructor; assumption. Qed.

  (** ** Lookups *)
  Lemma put_assoc {V} k (v : V) d k' : assoc k' (put k v d) = if String.eqb k' k then Some v else assoc k' d.
  Proof.
    induction d as [|[k2 v2] d IH]; cbn [put assoc]; [reflexivity|]. destruct (String.eqb_spec k k2) as [<-|N]; cbn [assoc].
    - destruct (String.eqb k' k); reflexivity.
    - rewrite IH. destruct (String.eqb_spec k' k2) as [->|]; [|reflexivity]. destruct (String.eqb_spec k2 k); [congruence | reflexivity].
  Qed.
  Lemma put_keys {V} k (v : V) d x : In x (map fst (put k v d)) <-> x = k \/ In x (map fst d).
  Proof.
    induction d as [|[k2 v2] d IH]; cbn [put map fst In]; [intuition congruence|]. destruct (String.eqb_spec k k2) as [<-|N]; cbn [map fst In]; [|rewrite IH]; intuition congruence.
  Qed.
  Lemma put_NoDup {V} k (v : V) d : NoDup (map fst d) -> NoDup (map fst (put k v d)).
  Proof.
    induction d as [|[k2 v2] d IH]; cbn [put map fst]; intros H; [repeat constructor; intros []|]. inversion H; subst. destruct (String.eqb_spec k k2) as [<-|N]; cbn [map fst].
    - constructor; assumption.
    - constructor; [rewrite put_keys; intros [->|I]; [congruence | contradiction] | auto].
  Qed.
  Lemma put_nonempty {V} k (v : V) d : put k v d <> [].
  Proof. destruct d as [|[k2 v2] d]; cbn [put]; [discriminate|]. destruct (String.eqb k k2); discriminate. Qed.
  Lemma look_up_spec l : forall ml o ml' o', look_up get_field get_mapped l ml o = Ok (ml', o') ->
    NoDup (map fst ml) ->
    (forall n f, assoc n o = Some f -> get_field n = Ok f /\ get_mapped n = None) ->
    (forall n m b, assoc n ml = Some (m, b) -> get_mapped n = Some m) ->
    NoDup (map fst ml') /\
    (forall n f, assoc n o' = Some f -> get_field n = Ok f /\ get_mapped n = None) /\
    (forall n m b, assoc n ml' = Some (m, b) -> get_mapped n = Some m /\ (assoc n ml = Some (m, b) \/ In (b, n) l)) /\
    (forall b n, In (b, n) l -> match get_mapped n with Some m => exists b', assoc n ml' = Some (m, b') | None => exists f, get_field n = Ok f /\ assoc n o' = Some f end) /\
    (forall n, In n (map fst ml) -> In n (map fst ml')) /\ (forall n f, assoc n o = Some f -> assoc n o' = Some f).
  Proof.
    induction l as [|[b n] l IH]; intros ml o ml' o' E ND HO HM; cbn [look_up] in E.
    - injection E as <- <-. split; [exact ND|]. split; [exact HO|]. split; [intros n m b A; split; [eapply HM; exact A | left; exact A]|]. split; [intros b n []|]. split; auto.
    - destruct (get_mapped n) as [m|] eqn:G.
      + destruct (IH _ _ _ _ E) as [A1 [A2 [A3 [A4 [A5 A6]]]]]; [apply put_NoDup; exact ND | exact HO | |].
        { intros k m' b' A. rewrite put_assoc in A. destruct (String.eqb_spec k n) as [->|]; [injection A as <- <-; exact G | eapply HM; exact A]. }
        split; [exact A1|]. split; [exact A2|]. split; [|split; [|split]].
        * intros k m' b' A. destruct (A3 k m' b' A) as [K [L|L]]; (split; [exact K|]).
          -- rewrite put_assoc in L. destruct (String.eqb_spec k n) as [->|]; [injection L as <- <-; right; left; reflexivity | left; exact L].
          -- right. right. exact L.
        * intros b' k [I|I]; [|apply (A4 b' k I)]. injection I as <- <-. rewrite G.
          assert (K : In n (map fst ml')) by (apply A5; apply put_keys; left; reflexivity).
          apply in_map_iff in K. destruct K as [[n' [m' b'']] [K I]]. cbn in K. subst n'.
          assert (S : assoc n ml' <> None) by (rewrite assoc_None; intros X; apply X; apply in_map_iff; exists (n, (m', b'')); auto).
          destruct (assoc n ml') as [[m2 b2]|] eqn:AS; [|congruence]. destruct (A3 n m2 b2 AS) as [K _]. rewrite G in K. injection K as <-. exists b2. reflexivity.
        * intros k I. apply A5. apply put_keys. right. exact I.
        * exact A6.
      + apply bind_ok in E. destruct E as [f [F E]]. destruct (IH _ _ _ _ E) as [A1 [A2 [A3 [A4 [A5 A6]]]]]; [exact ND | | exact HM |].
        { intros k g A. rewrite put_assoc in A. destruct (String.eqb_spec k n) as [->|]; [injection A as <-; auto | apply HO; exact A]. }
        split; [exact A1|]. split; [exact A2|]. split; [|split; [|split]].
        * intros k m' b' A. destruct (A3 k m' b' A) as [K [L|L]]; (split; [exact K|]); [left; exact L | right; right; exact L].
        * intros b' k [I|I]; [|apply (A4 b' k I)]. injection I as <- <-. rewrite G. exists f. split; [exact F|]. apply A6. rewrite put_assoc, String.eqb_refl. reflexivity.
        * exact A5.
        * intros k g A. destruct (assoc k (put n f o)) as [g'|] eqn:P.
          -- rewrite (A6 _ _ P). rewrite put_assoc in P. destruct (String.eqb_spec k n) as [->|]; [|congruence]. destruct (HO n g A) as [X _]. congruence.
          -- rewrite put_assoc in P. destruct (String.eqb_spec k n); [discriminate | congruence].
  Qed.

  (** ** With fields of the query's own *)
  Notation rep := (replacement get_field special n_measures enum).
  Lemma from_lookup_ok o n f g : assoc n o = Some f -> from_lookup get_field o n = Ok g -> g = f.
  Proof. unfold from_lookup. intros ->. congruence. Qed.
  Lemma replacement_cases o J U m (q : query R) f b : rep o J U m q = Ok (f, b) ->
    (special (mp_name m) = true /\ exists c, get_field (c ++ "_" ++ mp_name m)%string = Ok f) \/ determine get_field m J U = Ok f.
  Proof.
    unfold replacement. destruct (special (mp_name m)).
    - destruct (q_metrics q) as [|m0 ms]; [destruct (q_dims q) as [|d ds]|].
      + intros E. apply bind_ok in E. destruct E as [r [D E]]. injection E as <- <-. right. exact D.
      + intros E. apply bind_ok in E. destruct E as [[c|] [_ E]]; apply bind_ok in E; destruct E as [r [D E]]; injection E as <- <-; [left; split; [reflexivity | exists c; exact D] | right; exact D].
      + intros E. apply bind_ok in E. destruct E as [f0 [_ E]]. apply bind_ok in E. destruct E as [r [D E]]. apply bind_ok in E. destruct E as [b' [_ E]]. injection E as <- <-. left. split; [reflexivity | eauto].
    - intros E. apply bind_ok in E. destruct E as [r [D E]]. injection E as <- <-. right. exact D.
  Qed.
  Lemma replacement_dated o J U m (q : query R) f b m0 ms f0 : rep o J U m q = Ok (f, b) -> special (mp_name m) = true -> q_metrics q = m0 :: ms -> assoc m0 o = Some f0 ->
    get_field (canon_text (fl_canon f0) ++ "_" ++ mp_name m)%string = Ok f /\ other_canon get_field o (fl_canon f0) ms = Ok b.
  Proof.
    unfold replacement. intros E S Q A. rewrite S, Q in E. apply bind_ok in E. destruct E as [g [F E]]. apply (from_lookup_ok _ _ _ _ A) in F. subst g.
    apply bind_ok in E. destruct E as [r [D E]]. apply bind_ok in E. destruct E as [b' [O E]]. injection E as <- <-. auto.
  Qed.
  Lemma replacement_undated o J U m (q : query R) f b : rep o J U m q = Ok (f, b) -> special (mp_name m) = false \/ q_metrics q = [] -> b = false.
  Proof.
    unfold replacement. intros E [S|S]; rewrite S in E.
    - apply bind_ok in E. destruct E as [r [_ E]]. congruence.
    - destruct (special (mp_name m)); [destruct (q_dims q)|].
      + apply bind_ok in E. destruct E as [r [_ E]]. congruence.
      + apply bind_ok in E. destruct E as [[c|] [_ E]]; apply bind_ok in E; destruct E as [r [_ E]]; congruence.
      + apply bind_ok in E. destruct E as [r [_ E]]. congruence.
  Qed.
  Lemma other_canon_spec o c ms b : (forall m, In m ms -> assoc m o <> None) -> other_canon get_field o c ms = Ok b ->
    (b = true <-> exists m f, In m ms /\ assoc m o = Some f /\ fl_canon f <> c).
  Proof.
    assert (OE : forall x y, opt_str_eqb x y = true <-> x = y).
    { intros [x|] [y|]; cbn; try (split; congruence); rewrite String.eqb_eq; split; congruence. }
    induction ms as [|m ms IH]; intros H E; cbn [other_canon] in E.
    - injection E as <-. split; [discriminate | intros [m [f [[] _]]]].
    - destruct (assoc m o) as [f|] eqn:A; [|exfalso; apply (H m); [left; reflexivity | exact A]]. unfold from_lookup in E. rewrite A in E. cbn [bind] in E.
      destruct (opt_str_eqb (fl_canon f) c) eqn:O.
      + apply OE in O. rewrite (IH (fun x I => H x (or_intror I)) E). split.
        * intros [x [g [I P]]]. exists x, g. split; [right; exact I | exact P].
        * intros [x [g [[<-|I] [P Q]]]]; [congruence | exists x, g; auto].
      + injection E as <-. split; [intros _ | reflexivity]. exists m, f. split; [left; reflexivity|]. split; [exact A|]. intros X. apply OE in X. congruence.
  Qed.

  (** Why a field was chosen for a mapping *)
  Definition chosen (q0 : query R) (o : objects) (J U : list string) (m : mapping) (f : mfld) : Prop :=
    ((special (mp_name m) = true /\ exists c, get_field (c ++ "_" ++ mp_name m)%string = Ok f) \/ determine get_field m J U = Ok f) /\
    (forall m0 ms f0, special (mp_name m) = true -> q_metrics q0 = m0 :: ms -> assoc m0 o = Some f0 -> get_field (canon_text (fl_canon f0) ++ "_" ++ mp_name m)%string = Ok f).
  Hypothesis ids_unmapped : forall x f, get_field x = Ok f -> get_mapped (fl_id f) = None.
  Lemma determine_got m J U f : determine get_field m J U = Ok f -> exists x, In x (mp_fields m) /\ get_field x = Ok f.
  Proof.
    unfold determine. intros E. pose proof (det_looked_up _ _ _ _ _ _ _ E) as L. rewrite det_eq in E by exact L. cbn [app] in E.
    assert (G : forall J x, List.length (gate get_field J x) <= 1) by (intros J' x; unfold gate; destruct (get_field x) as [g|]; [destruct (meets _ _)|]; simpl; lia).
    assert (G2 : forall x, List.length (gate2 get_field J U x) <= 1) by (intros x; unfold gate2; destruct (get_field x) as [g|]; [destruct (meets _ _); [|destruct (meets _ _)]|]; simpl; lia).
    destruct (flat_map (gate get_field J) (mp_fields m)) as [|g r] eqn:A.
    - destruct (flat_map (gate2 get_field J U) (mp_fields m)) as [|g r] eqn:B; [discriminate|]. injection E as ->.
      destruct (gate_head _ _ _ _ B G2) as [pre [x [post [-> [P _]]]]]. exists x. split; [apply in_app_iff; right; left; reflexivity|].
      unfold gate2 in P. destruct (get_field x) as [h|]; [|discriminate]. destruct (meets _ _); [discriminate|]. destruct (meets _ _); [congruence | discriminate].
    - injection E as ->. destruct (gate_head _ _ _ _ A (G J)) as [pre [x [post [-> [P _]]]]]. exists x. split; [apply in_app_iff; right; left; reflexivity|].
      unfold gate in P. destruct (get_field x) as [h|]; [|discriminate]. destruct (meets _ _); [congruence | discriminate].
  Qed.
  Lemma chosen_got q0 o J U m f : chosen q0 o J U m f -> exists x, get_field x = Ok f.
  Proof. intros [[[_ [c C]]|D] _]; [eauto|]. destruct (determine_got _ _ _ _ D) as [x [_ X]]. eauto. Qed.

  Lemma replace_all_image q0 w h o all objs J U : NoDup (q_metrics q0) -> NoDup (q_dims q0) ->
    (forall m0, In m0 (q_metrics q0) -> assoc m0 objs <> None -> get_mapped m0 = None) ->
    forall ml s q q', replace_all get_field special n_measures enum (Names w h o all) objs J U ml q = Ok q' ->
    NoDup (map fst ml) -> (forall n m b, In (n, (m, b)) ml -> get_mapped n = Some m) ->
    image q0 w h o s q -> (forall k g, In (k, g) s -> get_mapped k <> None /\ get_mapped (fl_id g) = None) -> (forall n, In n (map fst s) -> ~ In n (map fst ml)) ->
    exists s', image q0 w h o (s ++ s') q' /\
      (forall n f, In (n, f) s' -> exists m, In (n, (m, true)) ml /\ chosen q0 objs J U m f) /\
      (forall n m, In (n, (m, true)) ml -> exists f, In (n, f) s').
  Proof.
    intros NM ND MP. induction ml as [|[n [m [|]]] ml IH]; intros s q q' E NK GM IM IDS DIS; cbn [replace_all] in E.
    - injection E as <-. exists []. rewrite app_nil_r. split; [exact IM|]. split; [intros n f [] | intros n m []].
    - apply bind_ok in E. destruct E as [[f b] [RP E]]. cbn [fst snd] in E. apply bind_ok in E. destruct E as [q1 [RM E]].
      inversion NK as [|? ? NI NK']; subst.
      assert (GN : get_mapped n = Some m) by (eapply GM; left; reflexivity).
      assert (NS : assoc n s = None) by (apply assoc_None; intros I; apply (DIS n I); left; reflexivity).
      assert (CH : chosen q0 objs J U m f).
      { split; [eapply replacement_cases; exact RP|]. intros m0 ms f0 S Q A.
        assert (Q' : q_metrics q = m0 :: map (sub s) ms).
        { rewrite (im_metrics _ _ _ _ _ _ IM), Q. cbn [map]. f_equal. unfold sub. destruct (assoc m0 s) as [g|] eqn:AS; [|reflexivity]. apply assoc_In in AS.
          exfalso. apply (proj1 (IDS _ _ AS)). apply MP; [rewrite Q; left; reflexivity | congruence]. }
        exact (proj1 (replacement_dated _ _ _ _ _ _ _ _ _ _ RP S Q' A)). }
      destruct (image_step q0 w h o all s (set_forced b q) n f q1) as [IM1 [F1 _]]; try assumption.
      { apply image_forced. exact IM. }
      { intros k g I X. destruct (IDS k g I) as [_ Y]. rewrite X, GN in Y. discriminate. }
      destruct (chosen_got _ _ _ _ _ _ CH) as [fx FX].
      destruct (IH (s ++ [(n, f)]) q1 q' E NK') as [s' [I1 [I2 I3]]].
      { intros k m' b' I. eapply GM. right. exact I. }
      { exact IM1. }
      { intros k g I. apply in_app_iff in I. destruct I as [I|[I|[]]]; [apply IDS; exact I|]. injection I as <- <-. split; [congruence | eapply ids_unmapped; exact FX]. }
      { intros k I J'. rewrite map_app in I. apply in_app_iff in I. destruct I as [I|[<-|[]]]; [apply (DIS k I); right; exact J' | exact (NI J')]. }
      exists ((n, f) :: s'). rewrite <- app_assoc in I1. split; [exact I1|]. split.
      + intros k g [I|I]; [injection I as <- <-; exists m; split; [left; reflexivity | exact CH]|]. destruct (I2 k g I) as [m' [I' C]]. exists m'. split; [right; exact I' | exact C].
      + intros k m' [I|I]; [injection I as <- <-; exists f; left; reflexivity|]. destruct (I3 k m' I) as [g G]. exists g. right. exact G.
    - inversion NK as [|? ? NI NK']; subst. destruct (IH s q q' E NK') as [s' [I1 [I2 I3]]]; [intros k m' b I; eapply GM; right; exact I | exact IM | exact IDS | intros k I J'; apply (DIS k I); right; exact J'|].
      exists s'. split; [exact I1|]. split.
      + intros k g I. destruct (I2 k g I) as [m' [A B]]. exists m'. split; [right; exact A | exact B].
      + intros k m' [I|I]; [discriminate I | apply (I3 k m' I)].
  Qed.

  (** The query becomes a merged one *)
  Definition differing (o : objects) (ms : list string) : Prop :=
    exists m0 rest f0 x f, ms = m0 :: rest /\ assoc m0 o = Some f0 /\ In x rest /\ assoc x o = Some f /\ fl_canon f <> fl_canon f0.
  Lemma replace_all_forced ns objs J U : forall ml (q q' : query R),
    replace_all get_field special n_measures enum ns objs J U ml q = Ok q' ->
    (forall x, In x (q_metrics q) -> assoc x objs <> None /\ get_mapped x = None) -> (forall n m b, In (n, (m, b)) ml -> get_mapped n = Some m) ->
    (q_forced q' = true <-> q_forced q = true \/ ((exists n m, In (n, (m, true)) ml /\ special (mp_name m) = true) /\ differing objs (q_metrics q))).
  Proof.
    induction ml as [|[n [m [|]]] ml IH]; intros q q' E PL GM; cbn [replace_all] in E.
    - injection E as <-. split; [auto|]. intros [H|[[n [m [[] _]]] _]]. exact H.
    - apply bind_ok in E. destruct E as [[f b] [RP E]]. cbn [fst snd] in E. apply bind_ok in E. destruct E as [q1 [RM E]].
      assert (GN : get_mapped n = Some m) by (eapply GM; left; reflexivity).
      assert (M1 : q_metrics q1 = q_metrics q /\ q_forced q1 = q_forced q || b).
      { unfold replace_mapped in RM. destruct (mem n (n_all ns)); [|discriminate]. injection RM as <-. cbn [q_metrics set_forced q_forced]. split; [|reflexivity].
        destruct (mem n (q_metrics q)) eqn:M; [|reflexivity]. apply mem_In in M. destruct (PL n M). congruence. }
      destruct M1 as [M1 F1]. rewrite (IH q1 q' E); [|rewrite M1; exact PL | intros k m' b' I; eapply GM; right; exact I]. rewrite M1, F1, orb_true_iff.
      assert (B : b = true <-> special (mp_name m) = true /\ differing objs (q_metrics q)).
      { destruct (special (mp_name m)) eqn:S.
        - destruct (q_metrics q) as [|m0 ms] eqn:Q.
          + rewrite (replacement_undated _ _ _ _ _ _ _ RP (or_intror Q)). split; [discriminate|]. intros [_ [m0 [rest [f0 [x [g [X _]]]]]]]. discriminate.
          + destruct (assoc m0 objs) as [f0|] eqn:A0; [|exfalso; apply (PL m0); [left; reflexivity | exact A0]].
            destruct (replacement_dated _ _ _ _ _ _ _ _ _ _ RP S Q A0) as [_ O].
            rewrite (other_canon_spec objs _ ms b (fun x I => proj1 (PL x (or_intror I))) O). split.
            * intros [x [g [I [AX D]]]]. split; [reflexivity|]. exists m0, ms, f0, x, g. auto.
            * intros [_ [m0' [rest [f0' [x [g [X [A [I [AX D]]]]]]]]]]. injection X as <- <-. exists x, g. split; [exact I|]. split; [exact AX | congruence].
        - rewrite (replacement_undated _ _ _ _ _ _ _ RP (or_introl S)). split; [discriminate | intros [X _]; discriminate]. }
      rewrite B. split.
      + intros [[H|[S D]]|[[k [m' [I S]]] D]]; [auto | right; split; [exists n, m; split; [left; reflexivity | exact S] | exact D] | right; split; [exists k, m'; split; [right; exact I | exact S] | exact D]].
      + intros [H|[[k [m' [[I|I] S]]] D]]; [auto | injection I as <- <-; auto | right; split; [exists k, m'; auto | exact D]].
    - rewrite (IH q q' E PL) by (intros k m' b' I; eapply GM; right; exact I). split.
      + intros [H|[[k [m' [I S]]] D]]; [auto | right; split; [exists k, m'; split; [right; exact I | exact S] | exact D]].
      + intros [H|[[k [m' [[I|I] S]]] D]]; [auto | discriminate I | right; split; [exists k, m'; auto | exact D]].
  Qed.

  (** ** Only mapped names *)
  Lemma replace_rest_image q0 w h o all l done : NoDup (q_metrics q0) -> NoDup (q_dims q0) ->
    forall ml s q q', replace_rest get_field (Names w h o all) l done ml q = Ok q' ->
    NoDup (map fst ml) -> (forall n m b, In (n, (m, b)) ml -> get_mapped n = Some m) ->
    image q0 w h o s q -> (forall k g, In (k, g) s -> get_mapped k <> None /\ get_mapped (fl_id g) = None) -> (forall n, In n (map fst s) -> n = done \/ ~ In n (map fst ml)) -> In done (map fst s) ->
    exists s', image q0 w h o (s ++ s') q' /\
      (forall n f, In (n, f) s' -> exists m b u, In (n, (m, b)) ml /\ usable l = Ok u /\ determine get_field m (joinable_of u) u = Ok f) /\
      (forall n m b, In (n, (m, b)) ml -> n <> done -> exists f, In (n, f) s') /\ q_forced q' = q_forced q.
  Proof.
    intros NM ND. induction ml as [|[n [m b]] ml IH]; intros s q q' E NK GM IM IDS DIS DN; cbn [replace_rest] in E.
    - injection E as <-. exists []. rewrite app_nil_r. split; [exact IM|]. split; [intros n f []|]. split; [intros n m b [] | reflexivity].
    - inversion NK as [|? ? NI NK']; subst. destruct (String.eqb_spec n done) as [->|D].
      + destruct (IH s q q' E NK') as [s' [I1 [I2 [I3 I4]]]]; try assumption; [intros k m' b' I; eapply GM; right; exact I | intros k I; destruct (DIS k I) as [X|X]; [left; exact X | right; intros Y; apply X; right; exact Y]|].
        exists s'. split; [exact I1|]. split; [|split; [|exact I4]].
        * intros k g I. destruct (I2 k g I) as [m' [b' [u [A B]]]]. exists m', b', u. split; [right; exact A | exact B].
        * intros k m' b' [I|I] N; [congruence | apply (I3 k m' b' I N)].
      + apply bind_ok in E. destruct E as [u [US E]]. apply bind_ok in E. destruct E as [[] [HI E]]. apply bind_ok in E. destruct E as [f [DT E]]. apply bind_ok in E. destruct E as [q1 [RM E]].
        assert (GN : get_mapped n = Some m) by (eapply GM; left; reflexivity).
        assert (NS : assoc n s = None) by (apply assoc_None; intros I; destruct (DIS n I) as [X|X]; [contradiction | apply X; left; reflexivity]).
        destruct (image_step q0 w h o all s q n f q1) as [IM1 [F1 _]]; try assumption.
        { intros k g I X. destruct (IDS k g I) as [_ Y]. rewrite X, GN in Y. discriminate. }
        destruct (determine_got _ _ _ _ DT) as [fx [_ FX]].
        destruct (IH (s ++ [(n, f)]) q1 q' E NK') as [s' [I1 [I2 [I3 I4]]]].
        { intros k m' b' I. eapply GM. right. exact I. }
        { exact IM1. }
        { intros k g I. apply in_app_iff in I. destruct I as [I|[I|[]]]; [apply IDS; exact I|]. injection I as <- <-. split; [congruence | eapply ids_unmapped; exact FX]. }
        { intros k I. rewrite map_app in I. apply in_app_iff in I. destruct I as [I|[<-|[]]]; [destruct (DIS k I) as [X|X]; [left; exact X | right; intros Y; apply X; right; exact Y] | right; exact NI]. }
        { rewrite map_app. apply in_app_iff. left. exact DN. }
        exists ((n, f) :: s'). rewrite <- app_assoc in I1. split; [exact I1|]. split; [|split; [|congruence]].
        * intros k g [I|I]; [injection I as <- <-; exists m, b, u; split; [left; reflexivity | auto]|]. destruct (I2 k g I) as [m' [b' [u' [A B]]]]. exists m', b', u'. split; [right; exact A | exact B].
        * intros k m' b' [I|I] N; [injection I as <- <- <-; exists f; left; reflexivity|]. destruct (I3 k m' b' I N) as [g G]. exists g. right. exact G.
  Qed.
  Lemma check_spec ml c : check get_field ml = Ok c -> forall n fs, In (n, fs) c -> exists m b, In (n, (m, b)) ml /\ forall x g, In (x, g) fs -> In x (mp_fields m).
  Proof.
    revert c. induction ml as [|[n [m b]] ml IH]; intros c E k fs I; cbn [check] in E; [injection E as <-; destruct I|].
    apply bind_ok in E. destruct E as [l [M E]]. apply bind_ok in E. destruct E as [c' [C E]]. injection E as <-.
    assert (K : In (k, fs) c' -> exists m0 b0, In (k, (m0, b0)) ((n, (m, b)) :: ml) /\ forall x g, In (x, g) fs -> In x (mp_fields m0)).
    { intros J. destruct (IH c' C k fs J) as [m' [b' [A B]]]. exists m', b'. split; [right; exact A | exact B]. }
    destruct l as [|e l]; [auto|]. destruct I as [I|I]; [|auto]. injection I as <- <-. exists m, b. split; [left; reflexivity|]. intros x g J.
    clear - M J. revert M J. generalize (e :: l). induction (mp_fields m) as [|y ys IHy]; intros l' M J; cbn [mapM] in M; [injection M as <-; destruct J|].
    apply bind_ok in M. destruct M as [z [Z M]]. apply bind_ok in M. destruct M as [zs [ZS M]]. injection M as <-. apply bind_ok in Z. destruct Z as [f [_ Z]]. injection Z as <-.
    destruct J as [J|J]; [injection J as <- _; left; reflexivity | right; eapply IHy; eassumption].
  Qed.
  Lemma valid_items_spec c n x p : In (n, (x, p)) (valid_items c) -> exists fs g, In (n, fs) c /\ In (x, g) fs.
  Proof.
    unfold valid_items. intros I. apply in_flat_map in I. destruct I as [[n' fs] [IC I]]. apply in_flat_map in I. destruct I as [[x' g] [IF I]].
    cbn [fst snd] in I. destruct (tally n' x' g c) as [p' pts]. destruct (Nat.eqb p' _); [|destruct I]. destruct I as [I|[]]. injection I as <- <- <-. eauto.
  Qed.
End Run.
