(** Property theorems: C21, C22, C27, and the literal case of C04. *)
From Verif Require Import PyBase PyStr Core_Model Clause_Model Clause_Spec Clause_Proofs.
Local Open Scope string_scope.
Local Open Scope list_scope.

(** ** C21: filter groups mean their AND/OR tree *)
(** For every row: [val] gives the truth of each comparison on the row, [leaf_value] that of each
    condition (the conjunction of its comparisons).  The clause printed for any list of filters of any
    depth has one reading in SQL, and its value is the conjunction of the filters' meanings. *)
Theorem C21_groups :
  forall (A L : Type) (leaf_ok : L -> res unit) (comparisons : L -> res (list A)) (val : A -> tv) (leaf_value : L -> tv),
    (forall l, leaf_ok l = Ok tt -> exists cs, comparisons l = Ok cs /\ cs <> [] /\ leaf_value l = all3 (map val cs)) ->
    forall fs : list (ftree A L), fs <> [] -> (forall f, In f fs -> validate leaf_ok f = Ok tt /\ ~ has_lit f) ->
    exists ts, where_sql leaf_ok comparisons None (ListWhere fs) = Ok (Some ts) /\
      forall x, sql_or val ts x <-> x = all3 (map (meaning leaf_value (fun _ => None)) fs).
Proof.
  intros A L leaf_ok comparisons val leaf_value LS fs NE H.
  destruct (clause_ok leaf_ok comparisons val leaf_value (fun _ => None) LS fs NE) as [ts [E O]].
  { apply Forall_forall. intros f I. destruct (H f I) as [V N]. split; [exact V|].
    destruct f; try exact N. exfalso. apply N. constructor. }
  exists ts. split; [exact E|]. intros x. split; [intros Hx; eapply sql_or_unique; eassumption | intros ->; exact O].
Qed.
Print Assumptions C21_groups.

(** The same with the access filter in front and, in the list, literals that contain no OR outside
    brackets. *)
Theorem C21_with_literals :
  forall (A L : Type) (leaf_ok : L -> res unit) (comparisons : L -> res (list A)) (val : A -> tv) (leaf_value : L -> tv) (lit_value : list (tok A) -> tv),
    (forall l, leaf_ok l = Ok tt -> exists cs, comparisons l = Ok cs /\ cs <> [] /\ leaf_value l = all3 (map val cs)) ->
    forall access (w : user_where A L), parse_filter_object access w <> [] ->
    (forall f, In f (parse_filter_object access w) -> validate leaf_ok f = Ok tt /\
       match f with FLit ts => sql_and val ts (lit_value ts) | _ => ~ has_lit f end) ->
    exists ts, where_sql leaf_ok comparisons access w = Ok (Some ts) /\
      forall x, sql_or val ts x <-> x = all3 (map (meaning leaf_value lit_value) (parse_filter_object access w)).
Proof.
  intros A L leaf_ok comparisons val leaf_value lit_value LS access w NE H.
  destruct (clause_ok leaf_ok comparisons val leaf_value lit_value LS _ NE) as [ts [E O]].
  { apply Forall_forall. intros f I. destruct (H f I) as [V N]. split; [exact V|]. destruct f; exact N. }
  exists ts. split; [exact E|]. intros x. split; [intros Hx; eapply sql_or_unique; eassumption | intros ->; exact O].
Qed.
Print Assumptions C21_with_literals.

(** The meaning's two connectives, said through truth: a row passes an AND group (also without
    operator) iff it passes every member, an OR group iff it passes some member. *)
Theorem C21_passes :
  forall (A L : Type) (leaf_value : L -> tv) (lit_value : list (tok A) -> tv) op conds,
    op <> Some "OR" ->
    (meaning leaf_value lit_value (FGroup op conds) = Some true <-> forall f, In f conds -> meaning leaf_value lit_value f = Some true) /\
    (meaning leaf_value lit_value (FGroup (Some "OR") conds) = Some true <-> exists f, In f conds /\ meaning leaf_value lit_value f = Some true).
Proof.
  intros A L lv tv op conds NO.
  assert (EA : meaning lv tv (FGroup op conds) = all3 (map (meaning lv tv) conds)).
  { destruct op as [o|]; [|reflexivity]. cbn [meaning]. destruct (String.eqb_spec o "OR") as [->|N]; [congruence | reflexivity]. }
  rewrite EA, all3_true, Forall_map, Forall_forall. split; [reflexivity|].
  change (meaning lv tv (FGroup (Some "OR") conds)) with (any3 (map (meaning lv tv) conds)).
  rewrite any3_true, Exists_exists. split.
  - intros [x [I ->]]. apply in_map_iff in I. destruct I as [f [E I]]. exists f. auto.
  - intros [f [I E]]. exists (Some true). split; [rewrite <- E; apply in_map; exact I | reflexivity].
Qed.
Print Assumptions C21_passes.

(** Unknown operators and empty groups, at any depth, are refused with ParseError, and with well formed
    conditions nothing else is refused. *)
Theorem C21_operators :
  forall (A L : Type) (leaf_ok : L -> res unit) (f : ftree A L), (forall l, leaf_of l f -> leaf_ok l = Ok tt) ->
    (bad_op f \/ has_empty f -> validate leaf_ok f = Err ParseError) /\
    (~ (bad_op f \/ has_empty f) -> validate leaf_ok f = Ok tt).
Proof.
  intros A L leaf_ok f LO. destruct (validate leaf_ok f) as [[]|e] eqn:V.
  - split; [intros B; exfalso; exact (validate_bad leaf_ok f B V) | reflexivity].
  - destruct (validate_errors leaf_ok f LO e V) as [-> B]. split; [reflexivity | intros N; contradiction].
Qed.
Print Assumptions C21_operators.
(** ... before any SQL is made *)
Theorem C21_operators_in_clause :
  forall (A L : Type) (leaf_ok : L -> res unit) (comparisons : L -> res (list A)) access (fs : list (ftree A L)) f,
    In f fs -> bad_op f \/ has_empty f -> forall ts, where_sql leaf_ok comparisons access (ListWhere fs) <> Ok ts.
Proof.
  intros A L leaf_ok comparisons access fs f I B ts E. unfold where_sql in E. apply bind_ok in E. destruct E as [cs [E _]].
  assert (I' : In f (parse_filter_object access (ListWhere fs))) by (unfold parse_filter_object; apply in_or_app; right; exact I).
  destruct (mapM_ok_each _ _ _ E f I') as [c F]. unfold filter_sql in F. apply bind_ok in F. destruct F as [[] [V _]].
  exact (validate_bad leaf_ok f B V).
Qed.
Print Assumptions C21_operators_in_clause.

(** A literal is kept verbatim: alone it is the whole clause *)
Theorem C21_literal_verbatim :
  forall (A L : Type) (leaf_ok : L -> res unit) (comparisons : L -> res (list A)) ts,
    where_sql leaf_ok comparisons None (LitWhere ts) = Ok (Some ts).
Proof. reflexivity. Qed.
Print Assumptions C21_literal_verbatim.

(** Cases: (p > 1 AND p < 9) OR (q OR (r AND s)), with a "matches" condition of two comparisons *)
Definition ex_comparisons (l : nat) : res (list nat) := Ok (if Nat.eqb l 0 then [10; 11] else [l]).
Definition ex_tree : ftree nat nat :=
  FGroup (Some "OR") [FLeaf 0; FGroup (Some "OR") [FLeaf 1; FGroup None [FLeaf 2; FLeaf 3]]].
Example C21_case :
  where_sql (fun _ => Ok tt) ex_comparisons None (ListWhere [ex_tree; FLeaf 4]) =
    Ok (Some [TOpen; TOpen; TAtom 10; TAnd; TAtom 11; TClose; TOr; TAtom 1; TOr; TOpen; TAtom 2; TAnd; TAtom 3; TClose; TClose; TAnd; TAtom 4]) /\
  (forall val, exists lv, forall l : nat, exists cs, ex_comparisons l = Ok cs /\ cs <> [] /\ lv l = all3 (map val cs)) /\
  ~ has_lit ex_tree /\ bad_op (FGroup None [FGroup (Some "XOR") [FLeaf 1]] : ftree nat nat).
Proof.
  split; [reflexivity|]. split.
  - intros val. exists (fun l => all3 (map val (if Nat.eqb l 0 then [10; 11] else [l]))). intros l. eexists. split; [reflexivity|].
    split; [destruct (Nat.eqb l 0); discriminate | reflexivity].
  - split.
    + intros H. inversion H as [|? ? f I K]; subst. destruct I as [<-|[<-|[]]]; [inversion K|].
      inversion K as [|? ? f I K']; subst. destruct I as [<-|[<-|[]]]; [inversion K'|].
      inversion K' as [|? ? f I K'']; subst. destruct I as [<-|[<-|[]]]; inversion K''.
    + eapply bad_below; [left; reflexivity|]. constructor. intros [I|[I|[]]]; discriminate I.
Qed.

(** *** A literal with OR escapes the conditions around it *)
(** where="b or c" beside the access filter [a]: the row failing [a] passes.  This also refutes C04 for
    literal filters. *)
Theorem C04_literal_where_escapes_access_filter_refuted :
  exists (access user : list (tok nat)) (val : nat -> tv) ts,
    where_sql (A := nat) (L := nat) (fun _ => Ok tt) (fun l => Ok [l]) (Some access) (LitWhere user) = Ok (Some ts) /\
    sql_or val access (Some false) /\ sql_or val ts (Some true) /\ (forall x, sql_or val ts x -> x = Some true).
Proof.
  exists [TAtom 0], [TAtom 1; TOr; TAtom 2], (fun n => Some (Nat.eqb n 2)), [TAtom 0; TAnd; TAtom 1; TOr; TAtom 2].
  assert (H : sql_or (fun n => Some (Nat.eqb n 2)) [TAtom 0; TAnd; TAtom 1; TOr; TAtom 2] (Some true)).
  { change (Some true) with (or3 (and3 (Some (Nat.eqb 0 2)) (Some (Nat.eqb 1 2))) (Some (Nat.eqb 2 2))).
    apply (or_more _ [TAtom 0; TAnd; TAtom 1]); [|apply or_one, and_one; apply (prim_atom (fun n => Some (Nat.eqb n 2)) 2)].
    apply (and_more _ [TAtom 0]); [|apply and_one]; apply (prim_atom (fun n => Some (Nat.eqb n 2))). }
  split; [reflexivity|]. split; [apply or_one, and_one; apply (prim_atom (fun n => Some (Nat.eqb n 2)) 0)|].
  split; [exact H|]. intros x Hx. eapply sql_or_unique; eassumption.
Qed.
Print Assumptions C04_literal_where_escapes_access_filter_refuted.

(** For every access filter and every user clause without unbracketed OR in a literal, a row that passes
    the clause passes the access filter. *)
Theorem C04_clause_implies_access_filter :
  forall (A L : Type) (leaf_ok : L -> res unit) (comparisons : L -> res (list A)) (val : A -> tv) (leaf_value : L -> tv) (lit_value : list (tok A) -> tv),
    (forall l, leaf_ok l = Ok tt -> exists cs, comparisons l = Ok cs /\ cs <> [] /\ leaf_value l = all3 (map val cs)) ->
    forall access (w : user_where A L),
    (forall f, In f (parse_filter_object (Some access) w) -> validate leaf_ok f = Ok tt /\
       match f with FLit ts => sql_and val ts (lit_value ts) | _ => ~ has_lit f end) ->
    exists ts, where_sql leaf_ok comparisons (Some access) w = Ok (Some ts) /\
      (sql_or val ts (Some true) -> sql_or val access (Some true)).
Proof.
  intros A L leaf_ok comparisons val leaf_value lit_value LS access w H.
  destruct (C21_with_literals A L leaf_ok comparisons val leaf_value lit_value LS (Some access) w) as [ts [E R]]; [discriminate | exact H |].
  exists ts. split; [exact E|]. intros T. apply R in T. symmetry in T. apply all3_true in T.
  inversion T as [|? ? T1 _]; subst. cbn [meaning] in T1.
  destruct (H (FLit access) (or_introl eq_refl)) as [_ S]. rewrite T1 in S. apply or_one. exact S.
Qed.
Print Assumptions C04_clause_implies_access_filter.
Example C04_clause_case :
  let val := fun n : nat => Some (Nat.eqb n 0) in
  forall f, In f (parse_filter_object (Some [TAtom 0; TAnd; TAtom 5]) (ListWhere [FLeaf 7])) ->
    validate (A := nat) (L := nat) (fun _ => Ok tt) f = Ok tt /\
    match f with FLit ts => sql_and val ts (Some false) | _ => ~ has_lit f end.
Proof.
  intros val f [<-|[<-|[]]]; (split; [reflexivity|]).
  - change (Some false) with (and3 (val 0) (val 5)). apply (and_more val [TAtom 0]); [|apply and_one]; constructor.
  - intros H. inversion H.
Qed.

(** ** C22: aggregate and row level conditions are not mixed *)
Theorem C22_groups :
  forall (L : Type) (field_type : L -> res string) (items : list (fobj L)),
    (forall l o, In o items -> occurs l o -> exists t, field_type l = Ok t) ->
    let mixed o := exists l1 l2, occurs l1 o /\ occurs l2 o /\ field_type l1 = Ok "measure" /\
                     (field_type l2 = Ok "dimension" \/ field_type l2 = Ok "dimension_group") in
    ((exists conds, In (OGroup conds) items /\ mixed (OGroup conds)) -> parse_where field_type items = Err QueryError) /\
    ((forall conds, In (OGroup conds) items -> ~ mixed (OGroup conds)) -> parse_where field_type items = Ok items).
Proof.
  intros L field_type items FT mixed.
  assert (C : forall conds, In (OGroup conds) items ->
            check_group field_type conds = Ok tt /\ ~ mixed (OGroup conds) \/ check_group field_type conds = Err QueryError /\ mixed (OGroup conds)).
  { intros conds I.
    assert (OC : forall l, In l (flatten_filters (OList conds)) <-> occurs l (OGroup conds)).
    { intros l. rewrite (reads_occurs (OList conds) _ (flatten_reads (OList conds)) l).
      split; intros H; inversion H; subst; econstructor; eassumption. }
    assert (M : exists types, mapM field_type (flatten_filters (OList conds)) = Ok types /\
                  forall t, In t types <-> exists l, occurs l (OGroup conds) /\ field_type l = Ok t).
    { assert (K : forall ls, (forall l, In l ls -> exists t, field_type l = Ok t) ->
                exists types, mapM field_type ls = Ok types /\ forall t, In t types <-> exists l, In l ls /\ field_type l = Ok t).
      { induction ls as [|l ls IH]; intros H.
        - exists []. split; [reflexivity|]. intros t. split; [intros [] | intros [l [[] _]]].
        - destruct (H l (or_introl eq_refl)) as [t0 E0]. destruct IH as [ts [E T]]; [intros l' I'; apply H; right; exact I'|].
          exists (t0 :: ts). cbn [mapM]. rewrite E0. cbn [bind]. rewrite E. split; [reflexivity|]. intros t. simpl. rewrite T. split.
          + intros [->|[l' [I' E']]]; [exists l; auto | exists l'; auto].
          + intros [l' [[<-|I'] E']]; [left; congruence | right; exists l'; auto]. }
      destruct (K (flatten_filters (OList conds))) as [ts [E T]].
      { intros l Il. apply (FT l (OGroup conds) I). apply OC. exact Il. }
      exists ts. split; [exact E|]. intros t. rewrite T. split; intros [l [P Q]]; exists l; (split; [apply OC; exact P | exact Q]). }
    destruct M as [types [E T]]. unfold check_group. destruct conds as [|c conds].
    { left. split; [reflexivity|]. intros [l1 [l2 [O1 _]]]. inversion O1; subst. destruct H0. }
    rewrite E. cbn [bind].
    destruct (mem "measure" types && (mem "dimension" types || mem "dimension_group" types)) eqn:B.
    - right. split; [reflexivity|]. apply andb_true_iff in B. destruct B as [B1 B2]. apply mem_In in B1. apply T in B1.
      destruct B1 as [l1 [O1 E1]]. apply orb_true_iff in B2.
      destruct B2 as [B2|B2]; apply mem_In in B2; apply T in B2; destruct B2 as [l2 [O2 E2]]; exists l1, l2; auto.
    - left. split; [reflexivity|]. intros [l1 [l2 [O1 [O2 [E1 E2]]]]].
      assert (M1 : mem "measure" types = true) by (apply mem_In, T; exists l1; auto). rewrite M1 in B. cbn [andb] in B.
      apply orb_false_iff in B. destruct B as [B1 B2].
      destruct E2 as [E2|E2]; [apply mem_false in B1; apply B1 | apply mem_false in B2; apply B2]; apply T; exists l2; auto. }
  split.
  - intros [conds [I Mx]]. unfold parse_where. apply (mapM_err_in _ items (OGroup conds)); [exact I | |].
    + cbn [check_item]. destruct (C conds I) as [[_ N]|[E _]]; [contradiction | rewrite E; reflexivity].
    + intros [l|cs|cs|] e' J E'; try discriminate E'. cbn [check_item] in E'.
      destruct (C cs J) as [[E _]|[E _]]; rewrite E in E'; cbn [bind] in E'; congruence.
  - intros N. clear FT. unfold parse_where. induction items as [|o items IH]; [reflexivity|].
    cbn [mapM]. assert (E : check_item field_type o = Ok tt).
    { destruct o as [l|cs|cs|]; try reflexivity. cbn [check_item].
      destruct (C cs (or_introl eq_refl)) as [[E _]|[_ Mx]]; [exact E | destruct (N cs (or_introl eq_refl) Mx)]. }
    rewrite E. cbn [bind]. rewrite IH; [reflexivity | |].
    + intros conds I. apply C. right. exact I.
    + intros conds I. apply N. right. exact I.
Qed.
Print Assumptions C22_groups.
(** a measure three levels down, beside a dimension *)
Example C22_case :
  let ft := fun l => Ok (if Nat.eqb l 0 then "measure" else "dimension_group") in
  parse_where ft [OLeaf 0; OGroup [OLeaf 1; OGroup [OGroup [OLeaf 0]]]] = Err QueryError /\
  parse_where ft [OLeaf 0; OGroup [OLeaf 1; OGroup [OLeaf 2]]; OGroup [OLeaf 0]] = Ok [OLeaf 0; OGroup [OLeaf 1; OGroup [OLeaf 2]]; OGroup [OLeaf 0]].
Proof. split; reflexivity. Qed.
(** Only groups are checked: a plain aggregate condition passes the where check (its aggregate then
    stands in WHERE), and a plain row level one passes the having check. *)
Theorem C22_plain_conditions_unchecked_refuted :
  exists (field_type : nat -> res string) items l1 l2,
    parse_where field_type items = Ok items /\ In (OLeaf l1) items /\ In (OLeaf l2) items /\
    field_type l1 = Ok "measure" /\ field_type l2 = Ok "dimension".
Proof.
  exists (fun l => Ok (if Nat.eqb l 0 then "measure" else "dimension")), [OLeaf 0; OLeaf 1], 0, 1. repeat split; simpl; auto.
Qed.
Print Assumptions C22_plain_conditions_unchecked_refuted.

(** ** C27: flattening *)
Theorem C27_leaves_in_order :
  forall (L : Type) (o : fobj L), reads o (flatten_filters o) /\
    (forall ls, reads o ls -> ls = flatten_filters o) /\
    (forall l, In l (flatten_filters o) <-> occurs l o).
Proof.
  intros L o. split; [apply flatten_reads|]. split.
  - intros ls R. eapply reads_unique; [exact R | apply flatten_reads].
  - apply reads_occurs, flatten_reads.
Qed.
Print Assumptions C27_leaves_in_order.
(** Grouping does not matter: brackets can be added or removed anywhere in a list *)
Theorem C27_grouping_irrelevant :
  forall (L : Type) (a b c : list (fobj L)),
    flatten_filters (OList (a ++ OGroup b :: c)) = flatten_filters (OList (a ++ b ++ c)).
Proof.
  intros L a b c. eapply reads_unique; [apply flatten_reads|].
  pose proof (flatten_reads (OList (a ++ b ++ c))) as R. inversion R as [| |cs ls F E1 E2|]; subst.
  apply Forall2_app_inv_l in F. destruct F as [la [lr [Fa [Fr ->]]]]. apply Forall2_app_inv_l in Fr. destruct Fr as [lb [lc [Fb [Fc ->]]]].
  replace (List.concat (la ++ lb ++ lc)) with (List.concat (la ++ List.concat lb :: lc)).
  - constructor. apply Forall2_app; [exact Fa|]. constructor; [constructor; exact Fb | exact Fc].
  - rewrite !concat_app. simpl. reflexivity.
Qed.
Print Assumptions C27_grouping_irrelevant.
Example C27_case :
  flatten_filters (OList [OLeaf 1; OGroup [OLeaf 2; OGroup [OLeaf 3; OOther]; OLeaf 4]; OLeaf 1]) = [1; 2; 3; 4; 1].
Proof. reflexivity. Qed.
