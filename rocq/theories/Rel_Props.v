(** C10 and C15: relationships and the grain of joined rows. *)
From Coq Require Import Lia.
From Verif Require Import PyBase PyStr JoinGraph_Model JoinGraph_Spec JoinGraph_Props JoinOrder_Model JoinOrder_Spec JoinOrder_Nx JoinOrder_Props
  Rel_Model Rel_Spec Rel_Proofs.
Local Open Scope string_scope.
Local Open Scope list_scope.
Local Open Scope nat_scope.

(** C10: if primary identifiers are unique, every table content agrees with the derived relationship. *)
Theorem C10_derived_relationship_agrees_with_data tab on j ti tj ku kv r :
  derive_relationship ti tj = Ok r ->
  typed ti ku (tab (jn_base j)) -> typed tj kv (tab (jn_view j)) ->
  (forall u v, on j u v = key_on ku kv u v) ->
  agrees tab on r j.
Proof.
  intros D TI TJ ON.
  assert (K : forall u v, on j u v = true -> exists a, ku u = Some a /\ kv v = Some a).
  { intros u v. rewrite ON. unfold key_on. destruct (ku u) as [a|]; [|discriminate]. destruct (kv v) as [b|]; [|discriminate].
    intros E. apply String.eqb_eq in E. subst. eauto. }
  assert (R : unique_key kv (tab (jn_view j)) -> one_right tab on j).
  { intros U x r1 r2 _ I1 I2 E1 E2. apply K in E1. apply K in E2. destruct E1 as [a [A1 A2]]. destruct E2 as [b [B1 B2]].
    assert (a = b) by congruence. subst. eapply U; eauto. }
  assert (L : unique_key ku (tab (jn_base j)) -> one_left tab on j).
  { intros U x1 x2 y I1 I2 _ E1 E2. apply K in E1. apply K in E2. destruct E1 as [a [A1 A2]]. destruct E2 as [b [B1 B2]].
    assert (a = b) by congruence. subst. eapply U; eauto. }
  destruct ti, tj; simpl in D; inversion D; subst; simpl in *; auto.
Qed.
Print Assumptions C10_derived_relationship_agrees_with_data.

(** C10: a many_to_one or one_to_one LEFT JOIN keeps every row exactly once. *)
Theorem C10_base_rows_not_multiplied tab on kind j rows r :
  (forall v, NoDup (tab v)) -> kind j = KLeft -> r = M2O \/ r = O2O -> agrees tab on r j ->
  (forall c u, In c rows -> assoc (jn_base j) c = Some u -> In u (tab (jn_base j))) ->
  Forall2 (fun c c' => c' = c \/ exists x, In x (tab (jn_view j)) /\ c' = (jn_view j, x) :: c) rows (join_rows tab on kind j rows).
Proof.
  intros TND K R A W. unfold join_rows. rewrite K.
  assert (O : one_right tab on j) by (destruct R as [-> | ->]; simpl in A; tauto).
  induction rows as [|c rows IH]; simpl; [constructor|].
  assert (M : matches tab on j c = [] \/ exists x, matches tab on j c = [x]).
  { apply NoDup_all_eq; [apply matches_NoDup; auto|]. intros x y X Y. apply matches_In in X. apply matches_In in Y.
    destruct X as [u [A1 [X1 X2]]]. destruct Y as [u' [A2 [Y1 Y2]]]. rewrite A1 in A2. inversion A2; subst.
    eapply O; eauto. eapply W; eauto. left; auto. }
  unfold left_rows at 1, inner_rows at 1. destruct M as [M|[x M]]; rewrite M; simpl.
  - constructor; auto. apply IH. intros; eapply W; eauto; right; auto.
  - constructor.
    + right. exists x. split; auto. assert (I : In x (matches tab on j c)) by (rewrite M; left; auto).
      apply matches_In in I. destruct I as [u [_ [I _]]]. auto.
    + apply IH. intros; eapply W; eauto; right; auto.
Qed.
Print Assumptions C10_base_rows_not_multiplied.

(** C10: one_to_one and one_to_many joins, of any kind, never repeat a row of the joined view. *)
Theorem C10_joined_rows_not_multiplied tab on kind j r :
  (forall v, NoDup (tab v)) -> r = O2O \/ r = O2M -> agrees tab on r j -> jn_view j <> jn_base j ->
  NoDup (occ (jn_view j) (join_rows tab on kind j (base_rows tab (jn_base j)))).
Proof.
  intros TND R A N. apply occ_new_NoDup with (present := [jn_base j]); auto.
  - apply base_within.
  - intros [E|[]]; auto.
  - destruct R as [-> | ->]; simpl in A; tauto.
  - rewrite base_occ. auto.
Qed.
Print Assumptions C10_joined_rows_not_multiplied.

(** C10: reversing. *)
Theorem C10_reverse_laws : (forall r, invert (invert r) = r) /\
  (forall a b r, derive_relationship a b = Ok r <-> derive_relationship b a = Ok (invert r)) /\
  (forall tab on (j : join) r,
     agrees tab on r j <-> agrees tab (fun k x y => on j y x) (invert r) (Join (jn_view j) (jn_base j) (jn_edge j))).
Proof.
  split; [intros []; reflexivity|]. split.
  - intros [] [] []; simpl; split; intros H; try discriminate; auto.
  - intros tab on j r. unfold agrees, one_right, one_left. simpl.
    destruct r; simpl; split; try tauto; try (intros [H1 H2]; split); intros; eauto.
Qed.
Print Assumptions C10_reverse_laws.

(** Without uniqueness both guarantees fail: the bounds are not vacuous. *)
Definition two_views (r : rel) : join := Join "a" "b" (Edge r "left_outer" "" (edge_weight r)).
Example C10_case :
  let tab v := if String.eqb v "a" then [1; 2] else [10; 11] in
  let ku (x : nat) := Some "k" in let kv (x : nat) := if Nat.eqb x 10 then Some "k" else Some "l" in
  let on (j : join) := key_on ku kv in
  derive_relationship TForeign TPrimary = Ok M2O /\ typed TPrimary kv (tab "b") /\
  join_rows tab on (fun _ => KLeft) (two_views M2O) (base_rows tab "a") = [[("b", 10); ("a", 1)]; [("b", 10); ("a", 2)]] /\
  occ "b" (join_rows tab on (fun _ => KLeft) (two_views M2O) (base_rows tab "a")) = [10; 10].
Proof.
  simpl. split; auto. split; [|split; reflexivity].
  intros r1 r2 a I1 I2 E1 E2. simpl in *.
  destruct I1 as [<-|[<-|[]]]; destruct I2 as [<-|[<-|[]]]; simpl in *; try reflexivity; congruence.
Qed.

(** ** C15 *)

(** The full statement (false, see below): whenever functional_pk names a view, no row of that view
    occurs twice in the joined rows. *)
Definition C15_statement : Prop := forall g base js final tab on kind v,
  joins_from g [base] js final -> (forall w, NoDup (tab w)) ->
  (forall j, In j js -> agrees tab on (jrel j) j) ->
  functional_pk base js = Some v -> NoDup (occ v (joined tab on kind base js)).

(** It holds for every table content when each one_to_many join starts at a view still at the grain;
    missing: the other join shapes, where the code's answer is wrong. *)
Theorem C15_functional_key_unique_partial g base js final tab on kind v :
  joins_from g [base] js final -> (forall w, NoDup (tab w)) ->
  (forall j, In j js -> agrees tab on (jrel j) j) ->
  chained [base] js ->
  functional_pk base js = Some v ->
  NoDup (occ v (joined tab on kind base js)) /\
  forall k, unique_key k (tab v) ->
    NoDup (flat_map (fun r => match k r with Some a => [a] | None => [] end) (occ v (joined tab on kind base js))).
Proof.
  intros JF TND AG CH F.
  assert (N : NoDup (occ v (joined tab on kind base js))).
  { eapply joined_grain; eauto. apply functional_pk_grain; auto. }
  split; auto. intros k U. apply NoDup_flat_map; auto.
  - intros x _. destruct (k x); repeat constructor; auto.
  - assert (W : forall x, In x (occ v (joined tab on kind base js)) -> In x (tab v)).
    { intros x X. destruct (chain_grain tab on kind TND g js [base] (base_rows tab base) final [] JF) as [WI _].
      - apply base_within.
      - auto.
      - intros z [].
      - intros z [].
      - eapply occ_within in X; [|exact WI]. tauto. }
    intros x y b X Y BX BY. destruct (k x) as [a|] eqn:A; [|destruct BX]. destruct (k y) as [a'|] eqn:A'; [|destruct BY].
    destruct BX as [<-|[]]. destruct BY as [<-|[]]. eapply U; eauto.
Qed.
Print Assumptions C15_functional_key_unique_partial.

(** Joins that are all many_to_one or one_to_one need no further condition: the base view's key. *)
Theorem C15_many_to_one_trees g base js final tab on kind :
  joins_from g [base] js final -> (forall w, NoDup (tab w)) ->
  (forall j, In j js -> agrees tab on (jrel j) j) ->
  (forall j, In j js -> jrel j = M2O \/ jrel j = O2O) ->
  functional_pk base js = Some base /\ NoDup (occ base (joined tab on kind base js)).
Proof.
  intros JF TND AG A.
  assert (FB : forallb (fun j => rel_eqb (jrel j) M2O || rel_eqb (jrel j) O2O) js = true).
  { apply forallb_forall. intros j J. destruct (A j J) as [-> | ->]; reflexivity. }
  split.
  - unfold functional_pk. destruct js as [|j js]; auto.
    destruct (existsb (fun j0 => rel_eqb (jrel j0) M2M) (j :: js)) eqn:E.
    + apply existsb_exists in E. destruct E as [x [X E]]. destruct (A x X) as [Q|Q]; rewrite Q in E; discriminate.
    + rewrite FB. auto.
  - eapply joined_grain; eauto. apply all_one_grain; simpl; auto.
Qed.
Print Assumptions C15_many_to_one_trees.

(** Chains of many_to_one and one_to_many joins, each starting where the last one ended, need no
    further condition either. *)
Fixpoint linear (cur : string) (js : list join) : Prop :=
  match js with [] => True | j :: r => jn_base j = cur /\ linear (jn_view j) r end.
Lemma linear_chained js : forall prev last cur u v,
  linear cur js -> (forall j, In j js -> jrel j = M2O \/ jrel j = O2M) -> (prev <> Some M2O -> In cur u) ->
  derive_pk_aux prev last js = Some v -> chained u js.
Proof.
  induction js as [|j js IH]; intros prev last cur u v L A P D; simpl; auto.
  destruct L as [L1 L2]. simpl in D. destruct (A j (or_introl eq_refl)) as [R|R]; rewrite R in D.
  - unfold jrel in R. rewrite R. split; [discriminate|]. eapply IH; eauto.
    + intros x X. apply A. right; auto.
    + intros N. congruence.
  - assert (NP : prev <> Some M2O) by (intros ->; discriminate).
    assert (D' : derive_pk_aux (Some O2M) (jn_view j) js = Some v) by (destruct prev as [[]|]; auto; congruence).
    unfold jrel in R. rewrite R. split; [intros _; rewrite L1; auto|].
    assert (M : existsb (String.eqb (jn_base j)) u = true).
    { rewrite L1. apply existsb_exists. exists cur. split; [auto|apply String.eqb_refl]. }
    rewrite M. eapply IH; eauto.
    + intros x X. apply A. right; auto.
    + intros _. left; auto.
Qed.
Theorem C15_linear_chains g base js final tab on kind v :
  joins_from g [base] js final -> (forall w, NoDup (tab w)) ->
  (forall j, In j js -> agrees tab on (jrel j) j) ->
  linear base js -> (forall j, In j js -> jrel j = M2O \/ jrel j = O2M) ->
  functional_pk base js = Some v -> NoDup (occ v (joined tab on kind base js)).
Proof.
  intros JF TND AG L A F. eapply C15_functional_key_unique_partial; eauto.
  unfold functional_pk in F. destruct js as [|x js]; [exact I|].
  destruct (existsb (fun j => rel_eqb (jrel j) M2M) (x :: js)); [discriminate|].
  destruct (forallb (fun j => rel_eqb (jrel j) M2O || rel_eqb (jrel j) O2O) (x :: js)) eqn:FB.
  - rewrite forallb_forall in FB.
    assert (G : forall l u, (forall j, In j l -> In j (x :: js)) -> chained u l).
    { induction l as [|j l IH]; intros u S; simpl; auto. split; [|apply IH; intros; apply S; right; auto].
      intros E. specialize (FB j (S j (or_introl eq_refl))). unfold jrel in FB. rewrite E in FB. discriminate. }
    apply G; auto.
  - eapply linear_chained with (prev := None); eauto. intros _. left; auto.
Qed.
Print Assumptions C15_linear_chains.
(** The chain orders -> lines -> products meets this; its functional key is lines. *)
Example C15_linear_case :
  let js := [Join "orders" "lines" (Edge O2M "" "" 1); Join "lines" "products" (Edge M2O "" "" 1)] in
  linear "orders" js /\ functional_pk "orders" js = Some "lines".
Proof. simpl. auto. Qed.

(** C15: a many_to_many join anywhere means no functional key. *)
Theorem C15_no_key_with_many_to_many base js j : In j js -> jrel j = M2M -> functional_pk base js = None.
Proof.
  intros I E. unfold functional_pk. destruct js as [|x js]; [destruct I|].
  assert (X : existsb (fun j0 => rel_eqb (jrel j0) M2M) (x :: js) = true).
  { apply existsb_exists. exists j. split; auto. rewrite E. reflexivity. }
  rewrite X. auto.
Qed.
Print Assumptions C15_no_key_with_many_to_many.

(** Finding: with two one_to_many joins from the base view the last joined view's key is taken although
    its rows repeat once per row of the other branch. *)
Definition jn (u v : string) (r : rel) : join := Join u v (Edge r "left_outer" "" (edge_weight r)).
Definition mk_graph (js : list join) : graph :=
  fold_left (fun g j => add_edge g (jn_base j) (jn_view j) (jn_edge j)) js [].
Theorem C15_two_fan_outs_refuted : ~ C15_statement.
Proof.
  intros H.
  set (js := [jn "a" "b" O2M; jn "a" "c" O2M]).
  set (tab := fun v => if String.eqb v "a" then [1] else [1; 2]).
  specialize (H (mk_graph js) "a" js ["c"; "b"; "a"] tab (fun _ _ _ => true) (fun _ => KLeft) "c").
  assert (N : NoDup (occ "c" (joined tab (fun _ _ _ => true) (fun _ => KLeft) "a" js))).
  { apply H.
    - repeat (constructor; simpl; [tauto|intuition discriminate|reflexivity|]). constructor.
    - intros w. unfold tab. destruct (String.eqb w "a"); repeat constructor; simpl; intuition discriminate.
    - intros j [<-|[<-|[]]]; simpl; intros u1 u2 r I1 I2 _ _ _; simpl in *; intuition congruence.
    - reflexivity. }
  vm_compute in N. apply NoDup_cons_iff in N. destruct N as [N _]. apply N. simpl. auto.
Qed.
Print Assumptions C15_two_fan_outs_refuted.

(** Finding: many_to_one, one_to_one, one_to_many in a row escapes the many_to_one/one_to_many test,
    because only the directly preceding join is looked at. *)
Theorem C15_many_to_one_then_fan_out_refuted :
  exists g base js final tab on kind v,
    joins_from g [base] js final /\ (forall w, NoDup (tab w)) /\ (forall j, In j js -> agrees tab on (jrel j) j) /\
    map jrel js = [M2O; O2O; O2M] /\ functional_pk base js = Some v /\ ~ NoDup (occ v (joined tab on kind base js)).
Proof.
  set (js := [jn "a" "b" M2O; jn "b" "c" O2O; jn "b" "d" O2M]).
  set (tab := fun v => if String.eqb v "a" then [1; 2] else [1]).
  exists (mk_graph js), "a", js, ["d"; "c"; "b"; "a"], tab, (fun _ _ _ => true), (fun _ => KLeft), "d".
  split. { repeat (constructor; simpl; [tauto|intuition discriminate|reflexivity|]). constructor. }
  split. { intros w. unfold tab. destruct (String.eqb w "a"); repeat constructor; simpl; intuition discriminate. }
  split.
  { intros j [<-|[<-|[<-|[]]]]; simpl; try split; intros x y z I1 I2 I3 _ _; simpl in *; intuition congruence. }
  split; [reflexivity|]. split; [reflexivity|].
  vm_compute. intros N. apply NoDup_cons_iff in N. destruct N as [N _]. apply N. left; auto.
Qed.
Print Assumptions C15_many_to_one_then_fan_out_refuted.

(** Concrete case: base one_to_many lines many_to_one products *)
Example C15_case :
  let js := [jn "orders" "lines" O2M; jn "lines" "products" M2O] in
  exists final, joins_from (mk_graph js) ["orders"] js final /\ chained ["orders"] js /\ functional_pk "orders" js = Some "lines".
Proof.
  simpl. exists ["products"; "lines"; "orders"]. split.
  { repeat (constructor; simpl; [tauto|intuition discriminate|reflexivity|]). constructor. }
  split; [|reflexivity]. simpl. repeat split; auto; discriminate.
Qed.
