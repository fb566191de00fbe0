(** C58: breaking a sum or a count down by dimensions does not change its total. *)
From Coq Require Import List String Ascii Bool QArith Lia Permutation.
From Verif Require Import PyBase PyStr PyList JoinGraph_Model JoinGraph_Spec JoinGraph_Props JoinOrder_Model JoinOrder_Spec JoinOrder_Nx JoinOrder_Props Rel_Model Rel_Spec Rel_Proofs Rel_Props
  Agg_Model Agg_Spec Agg_Proofs Agg_Props Clause_Model Clause_Spec Query_Model Query_Spec Query_Proofs Query_Props.
Import ListNotations.
Local Open Scope string_scope.
Local Open Scope list_scope.
Local Open Scope nat_scope.

(** The total of a column of a result *)
Definition num_cell (c : cell) : Q := match c with CNum (Some q) => q | _ => 0%Q end.
Definition column_total (i : nat) (result : list (list cell)) : Q := qsum (map (fun row => num_cell (nth i row (CNum None))) result).

(** ** Sums over the rows of groups *)
Lemma qsum_app l m : Qeq (qsum (l ++ m)) (qsum l + qsum m).
Proof. induction l as [|x l IH]; cbn [app qsum fold_right]; [unfold qsum; simpl; ring|]. unfold qsum in *. cbn [fold_right app]. rewrite IH. ring. Qed.
Lemma qsum_cons x l : qsum (x :: l) = (x + qsum l)%Q.
Proof. reflexivity. Qed.
Lemma qsum_ext {A} (f h : A -> Q) l : (forall x, In x l -> Qeq (f x) (h x)) -> Qeq (qsum (map f l)) (qsum (map h l)).
Proof.
  induction l as [|x l IH]; intros E; [reflexivity|]. cbn [map]. rewrite !qsum_cons. rewrite (E x) by (left; auto). rewrite IH by (intros; apply E; right; auto). reflexivity.
Qed.
Lemma qsum_plus {A} (f h : A -> Q) l : Qeq (qsum (map (fun x => (f x + h x)%Q) l)) (qsum (map f l) + qsum (map h l)).
Proof. induction l as [|x l IH]; [reflexivity|]. cbn [map]. rewrite !qsum_cons, IH. ring. Qed.
Lemma qsum_zero {A} (l : list A) : Qeq (qsum (map (fun _ => 0%Q) l)) 0.
Proof. induction l as [|x l IH]; [reflexivity|]. cbn [map]. rewrite qsum_cons, IH. ring. Qed.
(** one of the keys, once *)
Lemma qsum_pick {K} (eqb : K -> K -> bool) (E : forall a b, eqb a b = true <-> a = b) (k0 : K) (q : Q) ks : NoDup ks -> In k0 ks ->
  Qeq (qsum (map (fun k => if eqb k0 k then q else 0%Q) ks)) q.
Proof.
  induction ks as [|k ks IH]; intros ND I; [destruct I|]. inversion ND as [|? ? NI ND']; subst. cbn [map]. rewrite qsum_cons. destruct I as [->|I].
  - assert (T : eqb k0 k0 = true) by (apply E; auto). rewrite T.
    rewrite (qsum_ext _ (fun _ => 0%Q)); [rewrite qsum_zero; ring|]. intros k Ik. destruct (eqb k0 k) eqn:F; [|reflexivity]. apply E in F. subst. contradiction.
  - destruct (eqb k0 k) eqn:F; [apply E in F; subst; contradiction|]. rewrite IH; auto. ring.
Qed.
Lemma qsum_groups {A K} (eqb : K -> K -> bool) (E : forall a b, eqb a b = true <-> a = b) (key : A -> K) (phi : A -> Q) ks rows :
  NoDup ks -> (forall c, In c rows -> In (key c) ks) ->
  Qeq (qsum (map (fun k => qsum (map phi (filter (fun c => eqb (key c) k) rows))) ks)) (qsum (map phi rows)).
Proof.
  intros ND. induction rows as [|c rows IH]; intros H.
  - cbn [filter map]. change (qsum []) with 0%Q. apply qsum_zero.
  - cbn [map]. rewrite qsum_cons, <- IH by (intros; apply H; right; auto).
    transitivity (qsum (map (fun k => if eqb (key c) k then phi c else 0%Q) ks) + qsum (map (fun k => qsum (map phi (filter (fun c => eqb (key c) k) rows))) ks))%Q;
      [|rewrite (qsum_pick eqb E (key c) (phi c) ks ND (H c (or_introl eq_refl))); reflexivity].
    rewrite <- qsum_plus. apply qsum_ext. intros k _.
    cbn [filter]. destruct (eqb (key c) k); [cbn [map]; rewrite qsum_cons; reflexivity|ring].
Qed.

(** ** Left joins to the one side keep each row of the base once *)
Lemma left_chain g tab on (TND : forall v, NoDup (tab v)) : forall js present rows final base,
  joins_from g present js final -> In base present -> within tab present rows ->
  (forall j, In j js -> (jrel j = M2O \/ jrel j = O2O) /\ kind_of j = KLeft /\ agrees tab on (jrel j) j) ->
  map (assoc base) (fold_left (fun rows j => join_rows tab on kind_of j rows) js rows) = map (assoc base) rows.
Proof.
  induction js as [|j js IH]; intros present rows final base JF IB W H; [reflexivity|].
  inversion JF as [|? ? ? ? Ib NV GE JF']; subst. cbn [fold_left].
  destruct (H j (or_introl eq_refl)) as [R [K A]].
  rewrite (IH (jn_view j :: present) (join_rows tab on kind_of j rows) final base JF'); [|right; auto|apply within_join; auto|intros; apply H; right; auto].
  assert (F := C10_base_rows_not_multiplied tab on kind_of j rows (jrel j) TND K R A).
  assert (W' : forall c u, In c rows -> assoc (jn_base j) c = Some u -> In u (tab (jn_base j))) by (intros c u I E; exact (proj2 (W c (jn_base j) u I E))).
  specialize (F W'). clear - F NV IB.
  induction F as [|c c' rows rows' [->|[x [_ ->]]] F IHF]; [reflexivity| |]; cbn [map]; rewrite IHF; f_equal.
  cbn [assoc]. destruct (String.eqb base (jn_view j)) eqn:E; [apply String.eqb_eq in E; subst; contradiction|reflexivity].
Qed.

(** ** The rows of a measure *)
Lemma somes_cons {A B} (f : A -> option B) x l : somes f (x :: l) = match f x with Some y => y :: somes f l | None => somes f l end.
Proof. unfold somes. cbn [flat_map]. destruct (f x); reflexivity. Qed.
(** What a row adds to a sum or a count of its view *)
Definition adds (t : mtype) (x : option Q) : Q := match x with None => 0%Q | Some q => match t with TCount => 1%Q | _ => q end end.
Definition row_adds (t : mtype) (m : string) (val : nat -> option Q) (c : crow) : Q := match assoc m c with Some u => adds t (val u) | None => 0%Q end.
Lemma own_value_adds t own : t = TSum \/ t = TCount -> Qeq (match own_value t own with Some q => q | None => 0%Q end) (qsum (map (fun x : string * option Q => adds t (snd x)) own)).
Proof.
  intros T. assert (E : Qeq (match own_value t own with Some q => q | None => 0%Q end) (match t with TCount => qlen (own_vals own) | _ => qsum (own_vals own) end)).
  { destruct T as [-> | ->]; cbn [own_value]; [destruct (own_vals own); reflexivity|reflexivity]. }
  rewrite E. clear E. unfold own_vals. destruct T as [-> | ->].
  - induction own as [|[k [q|]] own IH]; [reflexivity| |]; rewrite somes_cons; cbn [snd map adds]; rewrite qsum_cons; [rewrite qsum_cons|]; rewrite IH; [reflexivity|ring].
  - induction own as [|[k [q|]] own IH]; [reflexivity| |]; rewrite somes_cons; cbn [snd map adds]; rewrite qsum_cons, <- IH; [|ring].
    change (Qeq (inject_Z (Z.of_nat (S (List.length (somes snd own))))) (1 + inject_Z (Z.of_nat (List.length (somes snd own))))). rewrite Nat2Z.inj_succ, <- Z.add_1_l, inject_Z_plus. reflexivity.
Qed.
Lemma own_of_adds t m key val rows : t = TSum \/ t = TCount -> NoDup (occ m rows) -> (forall u, In u (occ m rows) -> key u <> None) ->
  Qeq (match own_value t (own_of m key val rows) with Some q => q | None => 0%Q end) (qsum (map (row_adds t m val) rows)).
Proof.
  intros T ND KN. rewrite own_value_adds by auto. unfold own_of. rewrite (nodup_fixed_point Nat.eq_dec ND).
  assert (E : Qeq (qsum (map (fun x : string * option Q => adds t (snd x)) (somes (fun r => match key r with Some k => Some (k, val r) | None => None end) (occ m rows))))
                  (qsum (map (fun u => adds t (val u)) (occ m rows)))).
  { clear ND. revert KN. generalize (occ m rows). induction l as [|u l IH]; intros KN; [reflexivity|]. rewrite somes_cons. cbn [map].
    destruct (key u) as [k|] eqn:K; [|exfalso; exact (KN u (or_introl eq_refl) K)]. cbn [map snd]. rewrite !qsum_cons. apply Qplus_comp; [reflexivity|]. apply IH. intros; apply KN; right; auto. }
  rewrite E. clear. unfold occ. induction rows as [|c rows IH]; [reflexivity|]. cbn [flat_map map]. rewrite qsum_cons, map_app, qsum_app, IH.
  unfold row_adds at 2. destruct (assoc m c); cbn [map]; [rewrite qsum_cons|]; change (qsum []) with 0%Q; ring.
Qed.

Section Breakdown.
  Context {V C : Type}.
  Variable get_field : string -> res qfield.
  Variable w : warehouse.
  Variable pk : string -> option string.
  Variable g : graph.
  Variable comp : list (list string * string).
  Variable topo : list vpair -> option (list vpair).
  Variable sp : string -> string -> option (list string).
  Variable as_list : list string -> list string.
  Variable valid : qfield -> V -> res unit.
  Variable compare : qfield -> V -> res (list C).
  Variable access : string -> res (list (string * list C)).
  Variable fuel : nat.
  Notation generate := (generate get_field w pk g comp topo sp as_list valid compare access fuel).
  Variable tab : string -> list nat.
  Variable on : join -> nat -> nat -> bool.
  Variable dim : string -> crow -> option string.
  Variable key : string -> nat -> option string.
  Variable num : string -> nat -> option Q.
  Variable arith : string -> list (option Q) -> option Q.
  Variable dim_holds : C -> option string -> tv.
  Variable num_holds : C -> option Q -> tv.
  Variable hash : sym -> string -> Z.

  (** A dimension that reads nothing but the rows of one view *)
  Definition reads_only (v n : string) : Prop := forall c c', assoc v c = assoc v c' -> dim_named dim get_field n c = dim_named dim get_field n c'.
  (** The query starts at view [m] and joins to the one side, by left joins only *)
  Definition spreads_from (m : string) (q : qsql C) : Prop :=
    s_base q = m /\ forall j, In j (s_joins q) -> (jrel j = M2O \/ jrel j = O2O) /\ kind_of j = KLeft /\ agrees tab on (jrel j) j.
  (** The filters of the views the request reads are on the measure's own view *)
  Definition filters_own (m : string) (r : request V C) : Prop :=
    (forall t n, In t (rq_where r) -> In n (tree_fields t) -> reads_only m n) /\
    (forall n v fs a cs, asked r n -> mentions get_field n v -> access v = Ok fs -> In (a, cs) fs -> v = m /\ reads_only m a).

  Lemma spread_chained m q : spreads_from m q -> chained [m] (s_joins q) /\ functional_pk m (s_joins q) = Some m.
  Proof.
    intros [_ H]. split.
    - revert H. generalize [m] as u. induction (s_joins q) as [|j js IH]; intros u H; [exact I|]. cbn [chained]. split.
      + intros E. destruct (H j (or_introl eq_refl)) as [[R|R] _]; unfold jrel in R; congruence.
      + apply IH. intros; apply H; right; auto.
    - unfold functional_pk. destruct (s_joins q) as [|j js] eqn:E; [reflexivity|]. rewrite <- E in *. clear E.
      assert (A : existsb (fun j => rel_eqb (jrel j) M2M) (s_joins q) = false).
      { destruct (existsb _ _) eqn:X; auto. apply existsb_exists in X. destruct X as [j0 [I0 X]]. destruct (H j0 I0) as [[R|R] _]; rewrite R in X; discriminate. }
      rewrite A. assert (B : forallb (fun j => rel_eqb (jrel j) M2O || rel_eqb (jrel j) O2O) (s_joins q) = true).
      { apply forallb_forall. intros j0 I0. destruct (H j0 I0) as [[R|R] _]; rewrite R; reflexivity. }
      rewrite B. reflexivity.
  Qed.

  (** Adding dimensions keeps the total, whatever they are *)
  Theorem C58_breakdown_keeps_total gvs r0 r1 q0 q1 keep0 keep1 hold0 hold1 n f t b :
    build gvs = Ok g -> no_self_reference gvs -> topological_contract topo -> shortest_path_contract g sp ->
    enumerates as_list -> compares compare -> filters_on_dimensions get_field access ->
    (forall v, NoDup (tab v)) -> (forall v, has_char "."%char v = false \/ pk v = None) ->
    (forall v x, In x (tab v) -> key v x <> None) -> (forall v, unique_key (key v) (tab v)) ->
    (forall id xs ys, Forall2 qeq xs ys -> qeq (arith id xs) (arith id ys)) -> (forall c x y, qeq x y -> num_holds c x = num_holds c y) ->
    (* one metric, the same conditions, no conditions on groups *)
    get_field n = Ok f -> qf_body f = BAgg t b -> t = TSum \/ t = TCount ->
    rq_metrics r0 = [n] -> rq_dimensions r0 = [] -> rq_having r0 = [] -> proper get_field r0 ->
    rq_metrics r1 = [n] -> rq_where r1 = rq_where r0 -> rq_having r1 = [] -> proper get_field r1 ->
    generate r0 = Ok q0 -> generate r1 = Ok q1 ->
    reads_as (row_truth dim dim_holds) (s_where q0) keep0 -> reads_as (group_truth key num arith num_holds hash) (s_having q0) hold0 ->
    reads_as (row_truth dim dim_holds) (s_where q1) keep1 -> reads_as (group_truth key num arith num_holds hash) (s_having q1) hold1 ->
    spreads_from (qf_view f) q0 -> spreads_from (qf_view f) q1 -> filters_own (qf_view f) r0 -> filters_own (qf_view f) r1 ->
    Qeq (column_total (List.length (rq_dimensions r1)) (run tab on dim key num arith hash keep1 hold1 q1))
        (column_total 0 (run tab on dim key num arith hash keep0 hold0 q0)).
  Proof.
    intros B NS TC SC EN CO FD TND DOT KN KU AE NH G BF T M0 D0 H0 P0 M1 W1 H1 P1 GE0 GE1 K0 L0 K1 L1 S0 S1 O0 O1.
    set (m := qf_view f) in *.
    assert (A0 : asked r0 n) by (left; rewrite M0; left; auto). assert (A1 : asked r1 n) by (left; rewrite M1; left; auto).
    (* the total of a query that spreads from m *)
    assert (TOT : forall r q keep hold, rq_metrics r = [n] -> rq_having r = [] -> proper get_field r -> generate r = Ok q ->
              reads_as (row_truth dim dim_holds) (s_where q) keep -> reads_as (group_truth key num arith num_holds hash) (s_having q) hold -> spreads_from m q ->
              map (assoc m) (from_rows tab on q) = map Some (tab m) /\
              Qeq (column_total (List.length (rq_dimensions r)) (run tab on dim key num arith hash keep hold q))
                  (qsum (map (row_adds t m (num (qf_id f))) (filter keep (from_rows tab on q))))).
    { intros r q keep hold MM HH PP GE K L SS. destruct (spread_chained m q SS) as [CH FP]. destruct SS as [BB SS].
      assert (NA : exists n, asked r n) by (exists n; left; rewrite MM; left; auto).
      destruct (C56_from _ _ _ _ _ _ _ _ _ _ _ _ gvs r q B NS TC SC EN FD NA GE) as [final [JF _]]. rewrite BB in JF.
      assert (AS : map (assoc m) (from_rows tab on q) = map Some (tab m)).
      { unfold from_rows, joined. rewrite BB. rewrite (left_chain g tab on TND (s_joins q) [m] (base_rows tab m) final m JF (or_introl eq_refl) (base_within tab m) SS).
        unfold base_rows. rewrite map_map. apply map_ext. intros u. cbn [assoc]. rewrite String.eqb_refl. reflexivity. }
      split; auto.
      assert (OC : forall l, occ m l = somes (fun x => x) (map (assoc m) l)).
      { induction l as [|c l IHl]; [reflexivity|]. unfold occ in *. cbn [flat_map map]. rewrite somes_cons, IHl. destruct (assoc m c); reflexivity. }
      assert (OCC : occ m (from_rows tab on q) = tab m).
      { rewrite OC, AS. clear. induction (tab m) as [|u l IH]; [reflexivity|]. cbn [map]. rewrite somes_cons, IH. reflexivity. }
      set (rows := filter keep (from_rows tab on q)).
      assert (NDR : forall p, NoDup (occ m (filter p rows))) by (intros p; do 2 apply occ_filter_NoDup; rewrite OCC; apply TND).
      assert (KNR : forall p u, In u (occ m (filter p rows)) -> key m u <> None).
      { intros p u I. apply occ_subset in I. apply occ_subset in I. rewrite OCC in I. apply KN. exact I. }
      destruct (C56_answer _ _ _ _ _ _ _ _ _ _ access _ tab on dim key num arith num_holds hash gvs r q keep hold B NS TC SC EN CO FD NA GE PP L AE NH TND
        (fun j J => proj2 (proj2 (SS j J))) ltac:(rewrite BB; exact CH) DOT KN KU) as [ks [ND [KS F]]].
      { intros k n' h t' b' _ In' MO. assert (n' = n).
        { destruct In' as [In'|[t0 [In' _]]]; [rewrite MM in In'; destruct In' as [<-|[]]; auto|rewrite HH in In'; destruct In']. }
        subst n'. assert (h = f /\ t' = t /\ b' = b) as [-> [-> ->]].
        { inversion MO as [n1 f1 t1 b1 G1 B1|n1 f1 x h1 t1 b1 G1 B1 R1 M2]; subst; [assert (h = f) by congruence; subst h; rewrite BF in B1; injection B1 as <- <-; auto|].
          assert (f1 = f) by congruence. subst f1. congruence. }
        split; [destruct T as [-> | ->]; discriminate|]. split; [destruct T as [-> | ->]; discriminate|]. left. rewrite BB. exact FP. }
      fold rows in KS, F.
      assert (KR : forall k, In k ks <-> present get_field dim r rows k).
      { intros k. rewrite KS. rewrite HH. split; [intros [X _]; exact X|]. intros X. split; auto. intros t0 []. }
      assert (CELL : Qeq (column_total (List.length (rq_dimensions r)) (run tab on dim key num arith hash keep hold q))
                (qsum (map (fun k => qsum (map (row_adds t m (num (qf_id f))) (group_of get_field dim r rows k))) ks))).
      { assert (LEN : forall k, In k ks -> List.length k = List.length (rq_dimensions r)).
        { intros k I. apply KR in I. destruct I as [[-> ->]|[_ [c [_ ->]]]]; [reflexivity|]. unfold combination. apply map_length. }
        unfold column_total. revert F LEN. generalize (run tab on dim key num arith hash keep hold q). clear KR KS ND. induction ks as [|k ks IH]; intros outs F LEN.
        - inversion F; subst. reflexivity.
        - inversion F as [|? out ? outs' [cells [-> F1]] F']; subst. cbn [map]. rewrite !qsum_cons. rewrite IH by (auto; intros; apply LEN; right; auto).
          rewrite MM in F1. inversion F1 as [|? cx ? ? [x [-> Q1]] F2]; subst. inversion F2; subst.
          rewrite app_nth2 by (rewrite map_length, (LEN k) by (left; auto); lia). rewrite map_length, (LEN k) by (left; auto). rewrite Nat.sub_diag. cbn [nth num_cell].
          apply Qplus_comp; [|reflexivity].
          assert (MV : measure key num arith get_field fuel (group_of get_field dim r rows k) n
                       = own_value t (own_of m (key m) (num (qf_id f)) (group_of get_field dim r rows k))) by (destruct fuel; cbn [measure]; rewrite G, BF; reflexivity).
          rewrite MV in Q1. rewrite <- (own_of_adds t m (key m) (num (qf_id f)) (group_of get_field dim r rows k) T (NDR _) (KNR _)).
          destruct x as [x|]; destruct (own_value t _); cbn [qeq] in Q1; try tauto. reflexivity. }
      rewrite CELL. unfold group_of. apply qsum_groups; [apply key_is_spec|exact ND|].
      intros c I. apply KR. destruct (rq_dimensions r) as [|d ds] eqn:E; [left; split; auto; unfold combination; rewrite E; reflexivity|right]. split; [rewrite E; discriminate|]. eauto. }
    destruct (TOT r0 q0 keep0 hold0 M0 H0 P0 GE0 K0 L0 S0) as [AS0 T0]. destruct (TOT r1 q1 keep1 hold1 M1 H1 P1 GE1 K1 L1 S1) as [AS1 T1].
    rewrite D0 in T0. cbn [List.length] in T0. rewrite T1, T0.
    (* both keep the same rows of m *)
    assert (KE : forall c c', assoc m c = assoc m c' -> keep1 c = keep0 c').
    { intros c c' E.
      assert (R1 := C56_rows _ _ _ _ _ _ _ _ _ _ _ _ dim dim_holds r1 q1 keep1 GE1 P1 EN CO FD K1 c).
      assert (R0 := C56_rows _ _ _ _ _ _ _ _ _ _ _ _ dim dim_holds r0 q0 keep0 GE0 P0 EN CO FD K0 c').
      assert (FE : forall t0, In t0 (rq_where r0) -> row_filter dim dim_holds get_field compare c t0 = row_filter dim dim_holds get_field compare c' t0).
      { intros t0 I0. unfold row_filter. apply meaning_leaves. intros l Hl. destruct O0 as [O0 _]. rewrite (O0 t0 (fst l) I0 (leaf_of_fields _ _ Hl) c c' E). reflexivity. }
      assert (MF : mentions get_field n m) by (apply mentions_own; auto).
      assert (PE : permitted dim dim_holds get_field access r1 c <-> permitted dim dim_holds get_field access r0 c').
      { split; intros P n' v fs a cs x A M Ac I X.
        - destruct O0 as [_ O0]. destruct (O0 n' v fs a cs A M Ac I) as [-> RO]. rewrite <- (RO c c' E). eapply (P n m); eauto.
        - destruct O1 as [_ O1]. destruct (O1 n' v fs a cs A M Ac I) as [-> RO]. rewrite (RO c c' E). eapply (P n m); eauto. }
      rewrite W1 in R1.
      destruct (keep1 c) eqn:E1; destruct (keep0 c') eqn:E0; auto.
      - symmetry. apply R0. destruct (proj1 R1 eq_refl) as [X Y]. split; [apply PE; auto|]. intros t0 I0. rewrite <- FE by auto. auto.
      - apply R1. destruct (proj1 R0 eq_refl) as [X Y]. split; [apply PE; auto|]. intros t0 I0. rewrite FE by auto. auto. }
    assert (AS : map (assoc m) (from_rows tab on q1) = map (assoc m) (from_rows tab on q0)) by congruence.
    revert AS. generalize (from_rows tab on q0). generalize (from_rows tab on q1). clear - KE.
    induction l as [|c l IH]; intros [|c' l'] E; try discriminate; [reflexivity|]. cbn [map] in E. injection E as E1 E2.
    cbn [filter]. rewrite (KE c c' E1). specialize (IH l' E2). destruct (keep0 c'); [|exact IH]. cbn [map]. rewrite !qsum_cons, IH.
    unfold row_adds at 1 3. rewrite E1. reflexivity.
  Qed.
End Breakdown.
Print Assumptions C58_breakdown_keeps_total.

(** Case: the total of orders by the region of their customer; order 5 has no customer. *)
Definition no_access (v : string) : res (list (string * list cmp)) := Ok [].
Definition bd_generate := generate q_get Snowflake q_pk q_graph (composite_keys q_views) nx_topo (nx_sp q_graph) (nodup string_dec) (fun _ _ => Ok tt) (fun _ (v : cmp) => Ok [v]) no_access 3.
Definition bd0 : request cmp cmp := Request ["orders.total"] [] [FLeaf ("orders.status", CIs "paid")] [] [].
Definition bd1 : request cmp cmp := Request ["orders.total"] ["customers.region"] [FLeaf ("orders.status", CIs "paid")] [] [].
Definition bd_keep (c : crow) : bool := match assoc "orders" c with Some r => negb (Nat.eqb r 3) | None => false end.
Lemma bd_reads (c : crow) : bd_keep c = true <-> sql_or (row_truth q_dim q_dim_holds c) [TAtom (EDim "orders.status", CIs "paid")] (Some true).
Proof.
  assert (R : forall x, sql_or (row_truth q_dim q_dim_holds c) [TAtom (EDim "orders.status", CIs "paid")] x <-> x = row_truth q_dim q_dim_holds c (EDim "orders.status", CIs "paid")).
  { intros x. split.
    - intros H. inversion H as [ts y A|ts y ts' z A B E]; subst.
      + inversion A as [ts y P|ts y ts' z P Q E]; subst; [inversion P; auto|]. destruct ts as [|? [|? ?]]; discriminate.
      + destruct ts as [|? [|? ?]]; discriminate.
    - intros ->. apply or_one, and_one, prim_atom. }
  rewrite R. unfold bd_keep, row_truth, q_dim_holds. cbn [fst snd q_dim]. unfold q_dim. cbn [String.eqb Ascii.eqb Bool.eqb].
  destruct (assoc "orders" c) as [r|]; [|split; discriminate]. destruct (Nat.eqb r 3); simpl; split; congruence.
Qed.
Example C58_case : exists q0 q1,
  filters_on_dimensions q_get no_access /\ proper q_get bd0 /\ proper q_get bd1 /\
  bd_generate bd0 = Ok q0 /\ bd_generate bd1 = Ok q1 /\
  reads_as (row_truth q_dim q_dim_holds) (s_where q0) bd_keep /\ reads_as (group_truth q_key q_num q_arith q_num_holds h0) (s_having q0) (fun _ => true) /\
  reads_as (row_truth q_dim q_dim_holds) (s_where q1) bd_keep /\ reads_as (group_truth q_key q_num q_arith q_num_holds h0) (s_having q1) (fun _ => true) /\
  spreads_from q_tab q_on "orders" q0 /\ spreads_from q_tab q_on "orders" q1 /\ s_joins q0 = [] /\ map jn_view (s_joins q1) = ["customers"] /\
  filters_own q_get no_access q_dim "orders" bd0 /\ filters_own q_get no_access q_dim "orders" bd1 /\
  List.length (run q_tab q_on q_dim q_key q_num q_arith h0 bd_keep (fun _ => true) q1) = 3 /\
  Qeq (column_total 1 (run q_tab q_on q_dim q_key q_num q_arith h0 bd_keep (fun _ => true) q1)) 36.
Proof.
  assert (PW : forall n, In n ["orders.status"] -> is_dimension q_get n) by (intros n [<-|[]]; eexists; split; vm_compute; reflexivity).
  assert (PM : forall n, In n ["orders.total"] -> is_metric q_get n) by (intros n [<-|[]]; eapply metric_agg; vm_compute; reflexivity).
  assert (FO : forall r : request cmp cmp, rq_where r = [FLeaf ("orders.status", CIs "paid")] -> filters_own q_get no_access q_dim "orders" r).
  { intros r E. split; [|intros n v fs a cs _ _ A I; injection A as <-; destruct I]. rewrite E. intros t n [<-|[]] [<-|[]] c c' EQ.
    change (q_dim "orders.status" c = q_dim "orders.status" c').
    unfold q_dim. cbn [String.eqb Ascii.eqb Bool.eqb]. rewrite EQ. reflexivity. }
  eexists. eexists. split; [intros v fs a cs E I; injection E as <-; destruct I|].
  assert (PR : forall d : list string, (forall n, In n d -> is_dimension q_get n) ->
    proper q_get (Request ["orders.total"] d [FLeaf ("orders.status", CIs "paid") : ftree (sexp * cmp) (string * cmp)] [] [])).
  { intros d D. split; [exact D|]. split; [exact PM|]. split; [|intros t []]. intros t [<-|[]]. split; [intros H; inversion H|exact PW]. }
  split; [apply PR; intros n []|]. split. { apply PR. intros n [<-|[]]; eexists; split; vm_compute; reflexivity. }
  split; [vm_compute; reflexivity|]. split; [vm_compute; reflexivity|].
  split; [intros c; apply bd_reads|]. split; [intros c; cbn; tauto|]. split; [intros c; apply bd_reads|]. split; [intros c; cbn; tauto|].
  split; [split; [reflexivity|intros j []]|].
  split. { split; [reflexivity|]. intros j [<-|[]]. split; [left; reflexivity|]. split; [reflexivity|]. simpl. intros u r1 r2 Iu I1 I2 O1 O2. cbn [q_on] in *.
    destruct u as [|[|[|[|[|u]]]]]; simpl in O1, O2; try discriminate; apply Nat.eqb_eq in O1, O2; congruence. }
  split; [reflexivity|]. split; [reflexivity|]. split; [apply FO; reflexivity|]. split; [apply FO; reflexivity|].
  split; [vm_compute; reflexivity|]. vm_compute. reflexivity.
Qed.

(** Findings.  A breakdown whose total differs: [alone] is the metric without dimensions. *)
Definition total_changes (vs : list gview) (fields : list qfield) (pk : string -> option string) (m d : string) : Prop :=
  exists g q0 q1 (tab : string -> list nat) on dim key num,
    let get n := match find (fun f => String.eqb (qf_id f) n) fields with Some f => Ok f | None => Err AccessDenied end in
    let gen := generate get Snowflake pk g (composite_keys vs) nx_topo (nx_sp g) (nodup string_dec) (fun _ _ => Ok tt) (fun _ (v : cmp) => Ok [v]) no_access 3 in
    let result q := run tab on dim key num q_arith h0 (fun _ => true) (fun _ => true) q in
    build vs = Ok g /\ gen (Request [m] [] [] [] []) = Ok q0 /\ gen (Request [m] [d] [] [] []) = Ok q1 /\
    s_where q0 = None /\ s_where q1 = None /\ s_having q0 = None /\ s_having q1 = None /\
    (forall v, NoDup (tab v)) /\ (forall j, In j (s_joins q1) -> agrees tab on (jrel j) j) /\ (forall v x, In x (tab v) -> key v x <> None) /\ (forall v, unique_key (key v) (tab v)) /\
    ~ Qeq (column_total 1 (result q1)) (column_total 0 (result q0)).

(** The metric's view on the one side of the join: customers without orders are left out, and one with two kinds of
    orders counts twice, in two groups. *)
Definition bd_tab2 (v : string) : list nat := if String.eqb v "orders" then [1; 2] else [1; 2; 3].
Theorem C58_one_side_refuted : total_changes q_views q_fields q_pk "customers.credit" "orders.status".
Proof.
  eexists. eexists. eexists. exists bd_tab2, (fun _ u v => Nat.eqb v 1), q_dim, q_key, q_num.
  cbv zeta. split; [vm_compute; reflexivity|]. split; [vm_compute; reflexivity|]. split; [vm_compute; reflexivity|].
  split; [reflexivity|]. split; [reflexivity|]. split; [reflexivity|]. split; [reflexivity|].
  split. { intros v. unfold bd_tab2. destruct (String.eqb v "orders"); repeat constructor; simpl; intuition discriminate. }
  split. { intros j [<-|[]]. simpl. intros u r1 r2 _ _ _ A B. apply Nat.eqb_eq in A, B. congruence. }
  split; [discriminate|].
  split. { intros v r1 r2 a I1 I2 A B. unfold bd_tab2 in *. destruct (String.eqb v "orders"); simpl in I1, I2;
    repeat match goal with H : _ \/ _ |- _ => destruct H | H : False |- _ => destruct H end; subst; auto; cbv in A, B; congruence. }
  vm_compute. discriminate.
Qed.
Print Assumptions C58_one_side_refuted.

(** A one_to_one join goes both ways; the query starts at the view whose name comes first, and rows of the metric's view
    without a partner there are lost. *)
Definition o2o_views : list gview := [GView "accounts" [simple_id "user_id" TPrimary]; GView "users" [simple_id "user_id" TPrimary]].
Definition o2o_fields : list qfield :=
  [ QField "users" "number" (BAgg TCount false) "users.user_id" [] "users.user_id" ""; QField "accounts" "plan" BDim "accounts.plan" [] "" "" ].
Definition o2o_tab (v : string) : list nat := if String.eqb v "accounts" then [1] else if String.eqb v "users" then [1; 2] else [].
Theorem C58_one_to_one_refuted : total_changes o2o_views o2o_fields (fun _ => Some "user_id") "users.number" "accounts.plan".
Proof.
  eexists. eexists. eexists. exists o2o_tab, (fun _ u v => Nat.eqb u v), (fun _ _ => Some "free"), q_key, (fun _ _ => Some 1%Q).
  cbv zeta. split; [vm_compute; reflexivity|]. split; [vm_compute; reflexivity|]. split; [vm_compute; reflexivity|].
  split; [reflexivity|]. split; [reflexivity|]. split; [reflexivity|]. split; [reflexivity|].
  split. { intros v. unfold o2o_tab. destruct (String.eqb v "accounts"); [|destruct (String.eqb v "users")]; repeat constructor; simpl; intuition discriminate. }
  split. { intros j [<-|[]]. simpl. split; intros a b c _ _ _ A B; apply Nat.eqb_eq in A, B; congruence. }
  split; [discriminate|].
  split. { intros v r1 r2 a I1 I2 A B. unfold o2o_tab in *. destruct (String.eqb v "accounts"); [|destruct (String.eqb v "users")]; simpl in I1, I2;
    repeat match goal with H : _ \/ _ |- _ => destruct H | H : False |- _ => destruct H end; subst; auto; cbv in A, B; congruence. }
  vm_compute. discriminate.
Qed.
Print Assumptions C58_one_to_one_refuted.
