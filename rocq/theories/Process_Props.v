(** Specification and property theorems: C87, the answer does not depend on the process that computes it. *)
From Coq Require Import List String Ascii Bool Arith Lia Permutation.
From Verif Require Import PyBase PyList PyStr PySort Core_Model AccessFilter_Model Process_Model.
From Verif Require Mapping_Model Mapping_Props Set_Model Dispatch_Model JoinGraph_Model JoinOrder_Model JoinOrder_Nx JoinOrder_Props Access_Props.
Import ListNotations.
Local Open Scope string_scope.
Local Open Scope list_scope.
Local Open Scope nat_scope.

(** ** Specification *)
(** The order a process lists its sets in: every element once.  Two processes have two of them. *)
Definition listing {A} (e : list A -> list A) : Prop := forall l, NoDup (e l) /\ forall x, In x (e l) <-> In x l.

Lemma listings_perm {A} (e1 e2 : list A -> list A) l : listing e1 -> listing e2 -> Permutation (e1 l) (e2 l).
Proof. intros L1 L2. destruct (L1 l) as [N1 I1]. destruct (L2 l) as [N2 I2]. apply NoDup_Permutation; auto. intros x. rewrite I1, I2. reflexivity. Qed.
Lemma listing_dedup : listing dedup.
Proof.
  intros l. unfold dedup, dedup_by. pose proof (dedup_by_aux_NoDup (fun x : string => x) [] l) as K. rewrite map_id in K. split; [exact K|].
  intros x. pose proof (dedup_by_aux_keys (fun s : string => s) [] l x) as H. rewrite !map_id in H. rewrite H. cbn [In]. tauto.
Qed.
Lemma listing_rev : listing (fun l => rev (dedup l)).
Proof. intros l. destruct (listing_dedup l) as [N I]. split; [apply NoDup_rev; exact N|]. intros x. rewrite <- in_rev. apply I. Qed.

(** ** Orders that are put back *)
Lemma place_inj l : forall x y, In x l -> In y l -> place x l = place y l -> x = y.
Proof.
  induction l as [|z l IH]; intros x y X Y E; [destruct X|]. cbn [place] in E.
  destruct (String.eqb_spec x z) as [->|NX]; destruct (String.eqb_spec y z) as [->|NY]; try discriminate E; try reflexivity.
  apply IH; [destruct X; congruence|destruct Y; congruence|]. injection E as E. exact E.
Qed.
(** What is listed by the place in a list, or by the alphabet, is the same everywhere; the first has the elements once, each
    where it is mentioned first. *)
Theorem C87_restored : forall e1 e2 l, listing e1 -> listing e2 ->
  restored e1 l = restored e2 l /\ alphabetical e1 l = alphabetical e2 l /\ NoDup (restored e1 l) /\ (forall x, In x (restored e1 l) <-> In x l) /\
  (forall a b c x y, restored e1 l = a ++ x :: b ++ y :: c -> place x l < place y l).
Proof.
  intros e1 e2 l L1 L2. pose proof (listings_perm e1 e2 l L1 L2) as P. set (le := fun x y => Nat.leb (place x l) (place y l)).
  assert (TOT : forall x y, le x y = true \/ le y x = true) by (intros x y; unfold le; rewrite !Nat.leb_le; lia).
  assert (TR : forall x y z, le x y = true -> le y z = true -> le x z = true) by (intros x y z; unfold le; rewrite !Nat.leb_le; lia).
  destruct (L1 l) as [N I].
  assert (ANTI : forall x y, In x (e1 l) -> In y (e1 l) -> le x y = true -> le y x = true -> x = y).
  { intros x y X Y A B. unfold le in A, B. apply Nat.leb_le in A, B. apply (place_inj l); [apply I; exact X|apply I; exact Y|lia]. }
  split; [unfold restored; apply isort_perm_eq; auto|]. split; [apply sort_str_perm_eq; exact P|]. split; [apply isort_NoDup; exact N|]. split; [intros x; unfold restored; rewrite isort_In; apply I|].
  intros a b c x y E. unfold restored in E. fold le in E.
  assert (SO : sorted le (isort le (e1 l))) by (apply isort_sorted; auto). assert (ND : NoDup (isort le (e1 l))) by (apply isort_NoDup; exact N).
  rewrite E in SO, ND. assert (LE : le x y = true).
  { clear - SO. induction a as [|z a IH]; cbn [app] in SO; inversion SO as [|? ? H H']; subst; [apply H; apply in_or_app; right; left; reflexivity|apply IH; exact H']. }
  unfold le in LE. apply Nat.leb_le in LE. assert (NE : place x l <> place y l); [|lia]. intros EQ.
  assert (x = y). { apply (place_inj l); [| |exact EQ]; apply I; apply (isort_In le); rewrite E; apply in_or_app; right; [left; reflexivity|right; apply in_or_app; right; left; reflexivity]. }
  subst y. apply NoDup_remove_2 in ND. apply ND. apply in_or_app. right. apply in_or_app. right. left. reflexivity.
Qed.
Print Assumptions C87_restored.
Example C87_restored_case : restored (fun l => rev (dedup l)) ["b"; "a"; "b"; "c"] = ["b"; "a"; "c"] /\ alphabetical dedup ["b"; "a"; "b"; "c"] = ["a"; "b"; "c"].
Proof. split; reflexivity. Qed.

(** The timezone of the project *)
Theorem C87_timezone : forall e1 e2 own ms, listing e1 -> listing e2 -> project_timezone e1 own ms = project_timezone e2 own ms.
Proof.
  intros e1 e2 own ms L1 L2. unfold project_timezone. pose proof (listings_perm e1 e2 ms L1 L2) as P.
  assert (E : match e1 ms with [] => Ok None | [z] => Ok (Some z) | _ => Err QueryError end = match e2 ms with [] => Ok None | [z] => Ok (Some z) | _ => Err (A := option string) QueryError end).
  { pose proof (Permutation_length P) as PL. destruct (e1 ms) as [|a [|b r]]; destruct (e2 ms) as [|c [|d s]]; try discriminate PL; try reflexivity.
    apply Permutation_length_1 in P. subst c. reflexivity. }
  destruct own as [[|h z]|]; [exact E|reflexivity|exact E].
Qed.
Print Assumptions C87_timezone.

(** ** Sets of fields *)
Theorem C87_sets : forall views all e1 e2 fuel s, listing e1 -> listing e2 ->
  Set_Model.field_names views all e1 fuel s = Set_Model.field_names views all e2 fuel s.
Proof.
  intros views all e1 e2 fuel s L1 L2. revert s. induction fuel as [|n IH]; intros s; [reflexivity|]. cbn [Set_Model.field_names]. unfold Set_Model.names_body.
  assert (FS : forall s t, Set_Model.from_set views all (Set_Model.field_names views all e1 n) s t = Set_Model.from_set views all (Set_Model.field_names views all e2 n) s t).
  { intros s' t. unfold Set_Model.from_set. destruct (String.eqb t "ALL_FIELDS"); [reflexivity|]. destruct (field_name_parts t) as [[? v] x]. destruct (Set_Model.get_set views x v); [apply IH|reflexivity]. }
  assert (EN : mapM (Set_Model.entry views all (Set_Model.field_names views all e1 n) s) (Set_Model.st_fields s) = mapM (Set_Model.entry views all (Set_Model.field_names views all e2 n) s) (Set_Model.st_fields s)).
  { generalize (Set_Model.st_fields s). intros l. induction l as [|t l IHl]; [reflexivity|]. cbn [mapM]. rewrite IHl. unfold Set_Model.entry. rewrite !FS. reflexivity. }
  rewrite EN. clear EN. destruct (mapM (Set_Model.entry views all (Set_Model.field_names views all e2 n) s) (Set_Model.st_fields s)) as [es|e]; [|reflexivity]. cbn [bind]. f_equal. set (a := Set_Model.added es). set (l := filter _ a).
  assert (PI : forall x, Set_Model.index x a = place x a) by (intros x; generalize a; intros b; induction b as [|y b IHb]; [reflexivity|]; cbn [Set_Model.index place]; rewrite IHb; reflexivity).
  apply isort_perm_eq.
  - intros x y. rewrite !Nat.leb_le. lia.
  - intros x y z. rewrite !Nat.leb_le. lia.
  - intros x y X Y A B. apply Nat.leb_le in A. apply Nat.leb_le in B. assert (IA : forall z, In z (e1 l) -> In z a) by (intros z Z; apply (proj2 (L1 l)) in Z; apply filter_In in Z; apply Z).
    apply (place_inj a); [auto|auto|]. rewrite <- (PI x), <- (PI y). fold a in A, B. lia.
  - apply listings_perm; assumption.
Qed.
Print Assumptions C87_sets.

(** ** The model of a query *)
Theorem C87_model : forall name_of models maps e1 e2 given ms ds, listing e1 -> listing e2 ->
  Dispatch_Model.model_for_query name_of models maps e1 given ms ds = Dispatch_Model.model_for_query name_of models maps e2 given ms ds.
Proof.
  intros name_of models maps e1 e2 given ms ds L1 L2. unfold Dispatch_Model.model_for_query, Dispatch_Model.derive_model.
  destruct (Dispatch_Model.collect_models name_of models maps (ms ++ ds)) as [all mapped].
  pose proof (listings_perm e1 e2 all L1 L2) as P. pose proof (Permutation_length P) as PL.
  assert (D : match e1 all, mapped with [], _ :: _ => match Dispatch_Model.most_common mapped with m :: _ => Dispatch_Model.get_model models (Some m) | [] => Err IndexError end
              | [n], [] => Dispatch_Model.get_model models n | [n], _ => if match n with Some n => mem n mapped | None => false end then Dispatch_Model.get_model models n else Err QueryError | _, _ => Err QueryError end =
              match e2 all, mapped with [], _ :: _ => match Dispatch_Model.most_common mapped with m :: _ => Dispatch_Model.get_model models (Some m) | [] => Err IndexError end
              | [n], [] => Dispatch_Model.get_model models n | [n], _ => if match n with Some n => mem n mapped | None => false end then Dispatch_Model.get_model models n else Err QueryError | _, _ => Err QueryError end).
  { destruct (e1 all) as [|a [|b r]]; destruct (e2 all) as [|c [|d s]]; try discriminate PL; try reflexivity. apply Permutation_length_1 in P. subst c. reflexivity. }
  rewrite D. reflexivity.
Qed.
Print Assumptions C87_model.

(** ** The joins *)
(** The views are listed from a set.  Unless two views tie in both directions the joins are the same. *)
Theorem C87_joins_partial : forall g comp topo sp e1 e2 vs, listing e1 -> listing e2 ->
  (forall a b p q, In a vs -> In b vs -> sp a b = Some p -> sp b a = Some q -> JoinOrder_Model.path_weight g p = JoinOrder_Model.path_weight g q -> join_with "" p = join_with "" q -> p = q) ->
  JoinOrder_Model.joins g comp topo sp (e1 vs) = JoinOrder_Model.joins g comp topo sp (e2 vs).
Proof.
  intros g comp topo sp e1 e2 vs L1 L2 T. pose proof (listings_perm e1 e2 vs L1 L2) as P. destruct (Nat.eq_dec (List.length (e1 vs)) 2) as [E|E].
  - pose proof (proj2 (L1 vs)) as I. pose proof (Permutation_length P) as PL. destruct (e1 vs) as [|a [|b [|c r]]]; try discriminate E.
    destruct (Permutation_length_2_inv P) as [-> | ->]; [reflexivity|]. apply JoinOrder_Props.C47_two_views. intros p q. apply T; apply I; cbn [In]; auto.
  - apply JoinOrder_Props.C47_join_plan_independent_of_view_order; assumption.
Qed.
Print Assumptions C87_joins_partial.
(** With a tie the view after FROM differs from process to process. *)
Theorem C87_joins_refuted : exists e1 e2 vs j1 j2, listing e1 /\ listing e2
  /\ JoinOrder_Model.joins JoinOrder_Props.tie_g [] JoinOrder_Nx.nx_topo (JoinOrder_Nx.nx_sp JoinOrder_Props.tie_g) (e1 vs) = Ok [j1]
  /\ JoinOrder_Model.joins JoinOrder_Props.tie_g [] JoinOrder_Nx.nx_topo (JoinOrder_Nx.nx_sp JoinOrder_Props.tie_g) (e2 vs) = Ok [j2]
  /\ JoinGraph_Model.jn_base j1 <> JoinGraph_Model.jn_base j2.
Proof.
  exists dedup, (fun l => rev (dedup l)), ["x"; "xx"]. destruct JoinOrder_Props.C47_base_view_may_depend_on_set_order_refuted as [_ (j1 & j2 & A & B & X & Y)].
  exists j1, j2. split; [apply listing_dedup|]. split; [apply listing_rev|]. split; [exact A|]. split; [exact B|]. rewrite X, Y. discriminate.
Qed.
Print Assumptions C87_joins_refuted.

(** ** Access filters *)
Lemma concatM_perm {A B} (f : A -> res (list B)) l m : Permutation l m -> forall zs, concatM f l = Ok zs -> exists ys, concatM f m = Ok ys /\ Permutation zs ys.
Proof.
  intros P. induction P as [|x l m P IH|x y l|l m n P IH P' IH']; intros zs E.
  - exists zs. split; [exact E|apply Permutation_refl].
  - cbn [concatM] in *. apply bind_ok in E. destruct E as [a [A1 E]]. apply bind_ok in E. destruct E as [b [B1 E]]. injection E as <-.
    destruct (IH _ B1) as [ys [Y Q]]. exists (a ++ ys). rewrite A1. cbn [bind]. rewrite Y. cbn [bind]. split; [reflexivity|]. apply Permutation_app_head. exact Q.
  - cbn [concatM] in *. apply bind_ok in E. destruct E as [a [A1 E]]. apply bind_ok in E. destruct E as [b [B1 E]]. injection E as <-.
    apply bind_ok in B1. destruct B1 as [c [C1 B1]]. apply bind_ok in B1. destruct B1 as [d [D1 B1]]. injection B1 as <-.
    exists (c ++ a ++ d). rewrite C1. cbn [bind]. rewrite A1. cbn [bind]. rewrite D1. cbn [bind]. split; [reflexivity|].
    rewrite !app_assoc. apply Permutation_app_tail. apply Permutation_app_comm.
  - destruct (IH _ E) as [ys [Y Q]]. destruct (IH' _ Y) as [xs [X R]]. exists xs. split; [exact X|]. eapply Permutation_trans; eassumption.
Qed.
(** The same conditions in every process, so the same rows, though in another order. *)
Theorem C87_access : forall (C R : Type) (cond : field_obj -> string -> res (list C)) (holds : R -> C -> bool) p vs e1 e2 cs fs, listing e1 -> listing e2 ->
  get_access_filter C cond p (e1 vs) = Ok (cs, fs) ->
  exists cs' fs', get_access_filter C cond p (e2 vs) = Ok (cs', fs') /\ Permutation cs cs' /\ Permutation fs fs' /\
    forall r user_where, where_holds C holds r (where_filters C cs user_where) = where_holds C holds r (where_filters C cs' user_where).
Proof.
  intros C R cond holds p vs e1 e2 cs fs L1 L2 E. unfold get_access_filter in *. apply bind_ok in E. destruct E as [rs [RS E]].
  destruct (concatM_perm _ _ _ (listings_perm e1 e2 vs L1 L2) _ RS) as [ys [Y P]]. rewrite Y. cbn [bind].
  assert (PC : Permutation (flat_map snd rs) (flat_map snd ys)) by (apply Permutation_flat_map; exact P).
  assert (PF : Permutation (map fst rs) (map fst ys)) by (apply Permutation_map; exact P).
  assert (W : forall a b, Permutation a b -> forall r user_where, where_holds C holds r (where_filters C a user_where) = where_holds C holds r (where_filters C b user_where)).
  { intros a b Q r uw. apply Bool.eq_iff_eq_true. rewrite !Access_Props.C04_conditions_are_conjoined.
    split; intros H c [K|K]; apply H; auto; left; [apply (Permutation_in c (Permutation_sym Q))|apply (Permutation_in c Q)]; exact K. }
  destruct (flat_map snd rs) as [|c r] eqn:F.
  - injection E as <- <-. apply Permutation_nil in PC. rewrite PC. exists [], []. auto 10 using Permutation_refl.
  - injection E as <- <-. destruct (flat_map snd ys) as [|d s] eqn:G; [apply Permutation_sym, Permutation_nil in PC; discriminate PC|].
    exists (d :: s), (map fst ys). split; [reflexivity|]. split; [exact PC|]. split; [exact PF|]. apply W. exact PC.
Qed.
Print Assumptions C87_access.
(** Two restricted views: the SQL text has their conditions in the order of the process. *)
Theorem C87_access_refuted : exists e1 e2 p vs cs1 cs2 fs1 fs2, listing e1 /\ listing e2
  /\ get_access_filter string Access_Props.ex_cond p (e1 vs) = Ok (cs1, fs1) /\ get_access_filter string Access_Props.ex_cond p (e2 vs) = Ok (cs2, fs2)
  /\ join_with " and " cs1 <> join_with " and " cs2.
Proof.
  exists dedup, (fun l => rev (dedup l)), (Access_Props.ex_proj (Some Access_Props.ex_user)), ["orders"; "customers"]. do 4 eexists.
  split; [apply listing_dedup|]. split; [apply listing_rev|]. split; [vm_compute; reflexivity|]. split; [vm_compute; reflexivity|]. vm_compute. discriminate.
Qed.
Print Assumptions C87_access_refuted.

(** ** Funnels *)
(** The rows read are asked for in the same way, and the result has the same columns, in an order of the process. *)
Theorem C87_funnel : forall e1 e2 ms having dims steps keys, listing e1 -> listing e2 ->
  funnel_base e1 ms having dims steps keys = funnel_base e2 ms having dims steps keys /\
  Permutation (funnel_metrics e1 ms having) (funnel_metrics e2 ms having) /\
  ((forall x y, In x having -> In y having -> x = y) -> funnel_metrics e1 ms having = funnel_metrics e2 ms having).
Proof.
  intros e1 e2 ms having dims steps keys L1 L2. pose proof (listings_perm e1 e2 having L1 L2) as P. pose proof (listings_perm e1 e2 steps L1 L2) as Q.
  assert (PM : Permutation (funnel_metrics e1 ms having) (funnel_metrics e2 ms having)) by (apply Permutation_app_head; exact P).
  split; [|split; [exact PM|]].
  - unfold funnel_base. f_equal; apply sort_str_perm_eq; [exact PM|]. apply Permutation_app_tail. apply Permutation_app_head. exact Q.
  - intros ONE. unfold funnel_metrics. f_equal. destruct (L1 having) as [N I]. destruct (e1 having) as [|a [|b r]] eqn:E.
    + apply Permutation_nil in P. symmetry. exact P.
    + apply Permutation_length_1_inv in P. symmetry. exact P.
    + exfalso. inversion N as [|? ? A B]; subst. apply A. left. apply ONE; apply I; cbn [In]; auto.
Qed.
Print Assumptions C87_funnel.
(** Conditions on two metrics: the columns of the result are in another order in another process. *)
Theorem C87_funnel_refuted : exists e1 e2, listing e1 /\ listing e2 /\ forall ms a b, a <> b -> funnel_metrics e1 ms [a; b] <> funnel_metrics e2 ms [a; b].
Proof.
  exists dedup, (fun l => rev (dedup l)). split; [apply listing_dedup|]. split; [apply listing_rev|]. intros ms a b NE E. unfold funnel_metrics in E. apply app_inv_head in E.
  assert (D : dedup [a; b] = [a; b]).
  { unfold dedup, dedup_by. cbn. destruct (String.eqb_spec b a) as [EQ|_]; [congruence|]. reflexivity. }
  rewrite D in E. cbn in E. congruence.
Qed.
Print Assumptions C87_funnel_refuted.

(** The names in the message about duplicate fields are those given more than once, each of them once, in every
    process. *)
Theorem C87_message : forall enum view names, listing enum -> exists l,
  duplicate_message enum view names = ("Duplicate field names in view " ++ view ++ ": " ++ join_with ", " l)%string /\
  NoDup l /\ forall x, In x l <-> 2 <= count_occ string_dec names x.
Proof.
  intros enum view names L. exists (enum (repeated names)). split; [reflexivity|].
  assert (C : forall x, List.length (filter (String.eqb x) names) = count_occ string_dec names x).
  { intro x. induction names as [|y names IH]; [reflexivity|]. cbn [filter count_occ].
    destruct (String.eqb x y) eqn:E; destruct (string_dec y x) as [D|D]; cbn [List.length].
    - now rewrite IH.
    - apply String.eqb_eq in E. congruence.
    - apply String.eqb_neq in E. congruence.
    - exact IH. }
  split; [apply L|]. intro x. destruct (L (repeated names)) as [N M]. rewrite M. unfold repeated. rewrite filter_In, C, Nat.ltb_lt.
  split; [intros [_ H]; exact H | intro H; split; [|exact H]]. apply (count_occ_In string_dec). lia.
Qed.
Print Assumptions C87_message.
(** The message about two duplicate names is not the same in every process. *)
Theorem C87_message_refuted : exists e1 e2, listing e1 /\ listing e2 /\ duplicate_message e1 "orders" ["id"; "id"; "name"; "name"] <> duplicate_message e2 "orders" ["id"; "id"; "name"; "name"].
Proof. exists dedup, (fun l => rev (dedup l)). split; [apply listing_dedup|]. split; [apply listing_rev|]. vm_compute. discriminate. Qed.
Print Assumptions C87_message_refuted.

(** ** Mapped names *)
Section Mapped.
  Import Mapping_Model.
  Variable R : Type.
  Variable has_group_by : R -> bool.
  Variable get_field : string -> res mfld.
  Variable get_mapped : string -> option mapping.
  Variable special : string -> bool.
  Variable n_measures : string -> res nat.
  Variable idents : string -> list string.
  Notation resolve e := (resolve (R := R) has_group_by get_field get_mapped special n_measures e idents).

  Definition num (c : string) : nat := match n_measures c with Ok n => n | Err _ => 0 end.
  Lemma pick_same e1 e2 l : listing e1 -> listing e2 ->
    (forall c d, In c l -> In d l -> (exists n, n_measures c = Ok n) /\ (n_measures c = n_measures d -> c = d)) ->
    pick_canon n_measures (e1 l) = pick_canon n_measures (e2 l).
  Proof.
    intros L1 L2 H. pose proof (listings_perm e1 e2 l L1 L2) as P. pose proof (Permutation_length P) as PL.
    assert (ME : forall m, incl m l -> mapM (fun c => n <- n_measures c ;; Ok (c, n)) m = Ok (map (fun c => (c, num c)) m)).
    { intros m. induction m as [|c m IH]; intros I; [reflexivity|]. cbn [mapM map]. destruct (H c c (I c (or_introl eq_refl)) (I c (or_introl eq_refl))) as [[n E] _].
      unfold num at 1. rewrite E. cbn [bind]. rewrite IH; [reflexivity|]. intros x X. apply I. right. exact X. }
    assert (I1 : incl (e1 l) l) by (intros x X; apply (proj2 (L1 l)); exact X). assert (I2 : incl (e2 l) l) by (intros x X; apply (proj2 (L2 l)); exact X).
    unfold pick_canon. destruct (e1 l) as [|a [|b r]] eqn:E1; destruct (e2 l) as [|c [|d s]] eqn:E2; try discriminate PL; [reflexivity| |].
    - apply Permutation_length_1 in P. subst c. reflexivity.
    - rewrite (ME _ I1), (ME _ I2). cbn [bind].
      rewrite (isort_perm_eq (fun a b : string * nat => Nat.leb (snd b) (snd a))) with (m := map (fun c => (c, num c)) (c :: d :: s)); [reflexivity| | | |].
      + intros x y. rewrite !Nat.leb_le. lia.
      + intros x y z. rewrite !Nat.leb_le. lia.
      + intros x y X Y A B. apply Nat.leb_le in A, B. apply in_map_iff in X. apply in_map_iff in Y. destruct X as [x' [<- X]]. destruct Y as [y' [<- Y]]. cbn [snd] in A, B.
        assert (x' = y'); [|congruence]. destruct (H x' y' (I1 _ X) (I1 _ Y)) as [[n N] W]. destruct (H y' x' (I1 _ Y) (I1 _ X)) as [[k K] _]. apply W.
        unfold num in A, B. rewrite N, K in A, B. rewrite N, K. f_equal. lia.
      + apply Permutation_map. exact P.
  Qed.
  Lemma put_In {V} k (v : V) d x w : In (x, w) (put k v d) -> (x = k /\ w = v) \/ In (x, w) d.
  Proof.
    induction d as [|[k' v'] d IH]; cbn [put]; intros I.
    - destruct I as [I|[]]. injection I as <- <-. auto.
    - destruct (String.eqb k k'); destruct I as [I|I]; try (injection I as <- <-); [left; auto|right; right; exact I|right; left; reflexivity|].
      destruct (IH I) as [J|J]; [left; exact J|right; right; exact J].
  Qed.
  Lemma look_up_objects l : forall ml o ml' o', look_up get_field get_mapped l ml o = Ok (ml', o') ->
    forall x f, In (x, f) o' -> In (x, f) o \/ (In x (map snd l) /\ get_field x = Ok f).
  Proof.
    induction l as [|[b n] l IH]; intros ml o ml' o' E x f I; cbn [look_up] in E; [injection E as <- <-; left; exact I|].
    destruct (get_mapped n) as [m|].
    - destruct (IH _ _ _ _ E x f I) as [J|[J K]]; [left; exact J|right; split; [right; exact J|exact K]].
    - apply bind_ok in E. destruct E as [g [G E]]. destruct (IH _ _ _ _ E x f I) as [J|[J K]]; [|right; split; [right; exact J|exact K]].
      apply put_In in J. destruct J as [[-> ->]|J]; [right; split; [left; reflexivity|exact G]|left; exact J].
  Qed.
  Lemma replacement_same e1 e2 o J U m (q : query R) : q_metrics q <> [] \/ pick_canon n_measures (dim_canons e1 o (q_dims q)) = pick_canon n_measures (dim_canons e2 o (q_dims q)) ->
    replacement get_field special n_measures e1 o J U m q = replacement get_field special n_measures e2 o J U m q.
  Proof.
    intros H. unfold replacement. destruct (special (mp_name m)); [|reflexivity]. destruct (q_metrics q); [|reflexivity]. destruct (q_dims q) as [|d ds]; [reflexivity|].
    destruct H as [H|H]; [congruence|]. rewrite H. reflexivity.
  Qed.
  Lemma first_kept x y l : l <> [] -> replace_first x y l <> [].
  Proof. destruct l as [|z l]; intros H; [congruence|]. cbn [replace_first]. destruct (String.eqb z x); discriminate. Qed.
  Lemma all_same e1 e2 ns o J U ml : forall q : query R,
    (q_metrics q <> [] \/ forall ds, pick_canon n_measures (dim_canons e1 o ds) = pick_canon n_measures (dim_canons e2 o ds)) ->
    replace_all get_field special n_measures e1 ns o J U ml q = replace_all get_field special n_measures e2 ns o J U ml q.
  Proof.
    induction ml as [|[n [m b]] ml IH]; intros q H; [reflexivity|]. cbn [replace_all]. destruct b; [|apply IH; exact H].
    rewrite (replacement_same e1 e2 o J U m q); [|destruct H as [H|H]; [left; exact H|right; apply H]].
    destruct (replacement get_field special n_measures e2 o J U m q) as [x|e]; [|reflexivity]. cbn [bind].
    destruct (replace_mapped ns n (fst x) (set_forced (snd x) q)) as [q'|e] eqn:E; [|reflexivity]. cbn [bind]. apply IH. destruct H as [H|H]; [left|right; exact H].
    unfold replace_mapped in E. destruct (mem n (n_all ns)); [|discriminate E]. injection E as <-. cbn [q_metrics set_forced]. destruct (mem n (q_metrics q)); [apply first_kept|]; exact H.
  Qed.
  (** A query with a metric has its mapped names replaced by the same fields in every process *)
  Theorem C87_mapped : forall e1 e2 lookup_only (q : query R), q_metrics q <> [] -> resolve e1 lookup_only q = resolve e2 lookup_only q.
  Proof.
    intros e1 e2 lo q M. unfold Mapping_Model.resolve. destruct (clause_fields has_group_by idents (q_where q)) as [w|]; [|reflexivity]. cbn [bind].
    destruct (clause_fields has_group_by idents (q_having q)) as [h|]; [|reflexivity]. cbn [bind]. destruct (clause_fields has_group_by idents (q_order q)) as [o|]; [|reflexivity]. cbn [bind].
    destruct (look_up _ _ _ _ _) as [[ml objs]|]; [|reflexivity]. cbn [bind]. destruct ml as [|k ml]; [reflexivity|]. destruct objs as [|b objs]; [reflexivity|].
    destruct (usable _) as [u|]; [|reflexivity]. cbn [bind]. destruct (handle_invalid _ _); [|reflexivity]. cbn [bind]. apply all_same. left. exact M.
  Qed.
  (** and without one, when no two dates of its fields belong to views with equally many measures. *)
  Theorem C87_mapped_partial : forall e1 e2 lookup_only (q : query R) w h o, listing e1 -> listing e2 ->
    clause_fields has_group_by idents (q_where q) = Ok w -> clause_fields has_group_by idents (q_having q) = Ok h -> clause_fields has_group_by idents (q_order q) = Ok o ->
    (forall x y f g c d, In x (q_metrics q ++ q_dims q ++ w ++ h ++ o ++ lookup_only) -> In y (q_metrics q ++ q_dims q ++ w ++ h ++ o ++ lookup_only) ->
       get_field x = Ok f -> get_field y = Ok g -> fl_canon f = Some c -> fl_canon g = Some d -> c <> "" -> d <> "" ->
       (exists n, n_measures c = Ok n) /\ (n_measures c = n_measures d -> c = d)) ->
    resolve e1 lookup_only q = resolve e2 lookup_only q.
  Proof.
    intros e1 e2 lo q w h o L1 L2 W HV O T. unfold Mapping_Model.resolve. rewrite W, HV, O. cbn [bind].
    set (names := map (fun n => (true, n)) _ ++ _). destruct (look_up get_field get_mapped names [] []) as [[ml objs]|] eqn:LU; [|reflexivity]. cbn [bind].
    assert (OB : forall x f, In (x, f) objs -> In x (q_metrics q ++ q_dims q ++ w ++ h ++ o ++ lo) /\ get_field x = Ok f).
    { intros x f I. destruct (look_up_objects _ _ _ _ _ LU x f I) as [[]|[J K]]. split; [|exact K]. unfold names in J. rewrite map_app, !map_map in J. cbn [snd] in J. rewrite !map_id in J.
      rewrite !in_app_iff in *. destruct J as [J|J]; [tauto|]. apply filter_In in J. tauto. }
    destruct ml as [|k ml]; [reflexivity|]. destruct objs as [|b objs]; [reflexivity|].
    destruct (usable _) as [u|]; [|reflexivity]. cbn [bind]. destruct (handle_invalid _ _); [|reflexivity]. cbn [bind]. apply all_same. right. intros ds. unfold dim_canons. apply pick_same; [exact L1|exact L2|].
    assert (DC : forall c, In c (flat_map (fun d => match assoc d (b :: objs) with Some f => truthy_canon f | None => [] end) ds) -> exists x f, In (x, f) (b :: objs) /\ fl_canon f = Some c /\ c <> "").
    { intros c I. apply in_flat_map in I. destruct I as [x [_ I]]. destruct (assoc x (b :: objs)) as [f|] eqn:A; [|destruct I]. apply assoc_In in A. exists x, f. split; [exact A|].
      unfold truthy_canon in I. destruct (fl_canon f) as [[|ch tl]|]; [destruct I| |destruct I]. destruct I as [<-|[]]. split; [reflexivity|discriminate]. }
    intros c d C D. destruct (DC c C) as (x & f & X & FC & NC). destruct (DC d D) as (y & g & Y & GD & ND). destruct (OB x f X) as [X1 X2]. destruct (OB y g Y) as [Y1 Y2]. apply (T x y f g c d); assumption.
  Qed.
End Mapped.
Print Assumptions C87_mapped.
Print Assumptions C87_mapped_partial.

(** Dimensions of two views with as many measures and the mapped name "date": which of the two dates is meant is left to the
    process, so the same request has two answers. *)
Definition pr_fields : list (string * Mapping_Model.mfld) :=
  [("orders.region", Mapping_Model.MFld "orders.region" ["subquery_0"] (Some "orders.order")); ("sessions.device", Mapping_Model.MFld "sessions.device" ["subquery_0"] (Some "sessions.session"));
   ("orders.order_date", Mapping_Model.MFld "orders.order_date" ["subquery_0"] None); ("sessions.session_date", Mapping_Model.MFld "sessions.session_date" ["subquery_0"] None)].
Definition pr_get (x : string) : res Mapping_Model.mfld := match assoc x pr_fields with Some f => Ok f | None => Err AccessDenied end.
Definition pr_resolve (n : string -> res nat) (e : list string -> list string) (q : Mapping_Model.query unit) : res (Mapping_Model.query unit) :=
  Mapping_Model.resolve (fun _ => false) pr_get (fun x => if String.eqb x "date" then Some (Mapping_Model.Mapping "date" ["orders.order_date"; "sessions.session_date"]) else None)
    (fun n => String.eqb n "date") n e (fun _ => []) [] q.
Definition pr_query (dims : list string) : Mapping_Model.query unit := Mapping_Model.Query [] dims Mapping_Model.CNone Mapping_Model.CNone Mapping_Model.CNone false.
Theorem C87_date_refuted : exists e1 e2, listing e1 /\ listing e2 /\
  pr_resolve (fun _ => Ok 3) e1 (pr_query ["orders.region"; "sessions.device"; "date"]) = Ok (pr_query ["orders.region"; "sessions.device"; "orders.order_date"]) /\
  pr_resolve (fun _ => Ok 3) e2 (pr_query ["orders.region"; "sessions.device"; "date"]) = Ok (pr_query ["orders.region"; "sessions.device"; "sessions.session_date"]).
Proof. exists dedup, (fun l => rev (dedup l)). split; [apply listing_dedup|]. split; [apply listing_rev|]. split; vm_compute; reflexivity. Qed.
Print Assumptions C87_date_refuted.
Example C87_mapped_case : pr_resolve (fun c => Ok (String.length c)) (fun l => rev (dedup l)) (pr_query ["orders.region"; "sessions.device"; "date"]) = Ok (pr_query ["orders.region"; "sessions.device"; "sessions.session_date"])
  /\ pr_resolve (fun c => Ok (String.length c)) dedup (pr_query ["orders.region"; "sessions.device"; "date"]) = Ok (pr_query ["orders.region"; "sessions.device"; "sessions.session_date"]).
Proof. split; vm_compute; reflexivity. Qed.
