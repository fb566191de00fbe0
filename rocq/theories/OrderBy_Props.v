(** Specification and property theorems: C37, the ORDER BY argument; C44, orders and limits in the dialects. *)
From Coq Require Import List String Ascii ZArith Bool Lia.
From Verif Require Import PyBase PyStr PyReplace OrderBy_Model.
Import ListNotations.
Local Open Scope string_scope.
Local Open Scope list_scope.
Local Open Scope nat_scope.

(** * C37 *)
(** ** Specification: an item is a name, perhaps a direction in any case, and spaces around *)
Fixpoint spaces (n : nat) : string := match n with O => EmptyString | S n => String " " (spaces n) end.
Record item := Item { it_left : nat; it_name : string; it_word : option string; it_gap : nat; it_right : nat }.
Definition item_text (i : item) : string :=
  (spaces (it_left i) ++ it_name i ++ match it_word i with Some w => spaces (S (it_gap i)) ++ w | None => "" end ++ spaces (it_right i))%string.
Definition item_dir (i : item) : dir :=
  match it_word i with Some w => if String.eqb (lower w) "desc" then Desc else Asc | None => Asc end.
Fixpoint no_space (s : string) : bool := match s with EmptyString => true | String c r => negb (is_space c) && no_space r end.
(** the direction, when given, is asc or desc; the name has no space and no comma and does not contain a direction *)
Definition good_item (i : item) : Prop :=
  (forall w, it_word i = Some w -> lower w = "asc" \/ lower w = "desc")
  /\ no_space (it_name i) = true /\ has_char comma (it_name i) = false
  /\ contains "desc" (lower (it_name i)) = false
  /\ (item_dir i = Asc -> contains "asc" (lower (it_name i)) = false).

(** ** Strings *)
Lemma strip_prefix_sep old p c s r : has_char c old = false -> strip_prefix old (p ++ String c s)%string = Some r ->
  exists q, strip_prefix old p = Some q.
Proof.
  revert p. induction old as [|a old IH]; intros p H E; [eexists; reflexivity|]. simpl in H. apply orb_false_iff in H. destruct H as [H1 H2].
  destruct p as [|b p]; simpl in E.
  - rewrite H1 in E. discriminate E.
  - simpl. destruct (Ascii.eqb a b); [|discriminate]. eapply IH; eauto.
Qed.
Lemma starts_sep old p c s : has_char c old = false -> starts_with old p = false -> starts_with old (p ++ String c s)%string = false.
Proof.
  unfold starts_with. intros H E. destruct (strip_prefix old (p ++ String c s)%string) eqn:F; auto.
  destruct (strip_prefix_sep _ _ _ _ _ H F) as [q Q]. rewrite Q in E. discriminate.
Qed.
Lemma starts_app old p s : starts_with old p = true -> starts_with old (p ++ s)%string = true.
Proof.
  unfold starts_with. destruct (strip_prefix old p) eqn:E; [|discriminate]. apply strip_prefix_some in E. subst. intros _.
  rewrite append_assoc, strip_prefix_app. reflexivity.
Qed.
Lemma contains_sep old p c s : has_char c old = false -> old <> "" ->
  contains old (p ++ String c s)%string = contains old p || contains old s.
Proof.
  intros H NE. induction p as [|a p IH].
  - simpl append. cbn [contains]. replace (starts_with old (String c s)) with false.
    + replace (starts_with old "") with false; [reflexivity|]. destruct old; [congruence|reflexivity].
    + destruct old as [|b old]; [congruence|]. unfold starts_with. simpl. simpl in H. apply orb_false_iff in H. destruct H as [H _].
      now rewrite H.
  - cbn [append contains]. rewrite IH. rewrite orb_assoc. f_equal. f_equal.
    destruct (starts_with old (String a p)) eqn:E.
    + apply (starts_app old (String a p) (String c s)) in E. exact E.
    + apply (starts_sep old (String a p) c s H E).
Qed.
Lemma replace_sep old new p c s : has_char c old = false -> old <> "" -> contains old p = false ->
  replace old new (p ++ String c s)%string = (p ++ String c (replace old new s))%string.
Proof.
  intros H NE C. induction p as [|a p IH].
  - simpl append. apply replace_skip; auto. destruct old as [|b old]; [congruence|]. simpl. simpl in H. apply orb_false_iff in H. destruct H as [H _].
    now rewrite H.
  - cbn [contains] in C. apply orb_false_iff in C. destruct C as [C1 C2]. simpl append. rewrite replace_skip; auto; [now rewrite IH|].
    pose proof (starts_sep old (String a p) c s H C1) as S. unfold starts_with in S. cbn [append] in S. now destruct (strip_prefix old (String a (p ++ String c s))).
Qed.
Lemma lower_spaces n : lower (spaces n) = spaces n.
Proof. induction n; simpl; f_equal; auto. Qed.
Lemma contains_spaces x p n : x <> " "%char -> contains (String x p) (spaces n) = false.
Proof.
  intros NE. induction n; [reflexivity|]. cbn [spaces contains]. rewrite IHn, orb_false_r. unfold starts_with. simpl.
  destruct (Ascii.eqb_spec x " "); [contradiction|reflexivity].
Qed.
Lemma is_space_lower c : is_space (lower_ascii c) = is_space c.
Proof. destruct c as [[] [] [] [] [] [] [] []]; vm_compute; reflexivity. Qed.
Lemma no_space_lower s : no_space (lower s) = no_space s.
Proof. induction s as [|c s IH]; simpl; auto. now rewrite is_space_lower, IH. Qed.
Lemma spaces_app a b : (spaces a ++ spaces b)%string = spaces (a + b).
Proof. induction a; simpl; congruence. Qed.
Lemma contains_left_spaces x p n s : x <> " "%char -> contains (String x p) (spaces n ++ s)%string = contains (String x p) s.
Proof.
  intros NE. induction n; [reflexivity|]. cbn [spaces append contains]. rewrite IHn. replace (starts_with _ _) with false; [reflexivity|].
  unfold starts_with. simpl. destruct (Ascii.eqb_spec x " "); [contradiction|reflexivity].
Qed.
(** a letter, a space and a letter *)
Lemma gap_spaces n : contains "s l" (spaces n) = false /\ contains "s f" (spaces n) = false.
Proof. split; apply contains_spaces; discriminate. Qed.
Lemma gap_no x y f n : no_space f = true -> x <> " "%char -> y <> " "%char ->
  contains (String x (String " " (String y ""))) (f ++ spaces n)%string = false.
Proof.
  intros N NX NY. induction f as [|c f IH]; [now apply contains_spaces|]. simpl in N. apply andb_true_iff in N. destruct N as [N1 N2].
  cbn [append contains]. rewrite IH by auto. rewrite orb_false_r. unfold starts_with. cbn [strip_prefix].
  destruct (Ascii.eqb x c); auto. destruct f as [|d f]; cbn [append].
  - destruct n as [|[|n]]; cbn [spaces]; auto. destruct (Ascii.eqb_spec y " "); [contradiction|reflexivity].
  - destruct (Ascii.eqb_spec " " d) as [<-|]; auto. simpl in N2. discriminate N2.
Qed.
Lemma contains_trans p q s : contains p q = true -> contains q s = true -> contains p s = true.
Proof.
  rewrite !contains_spec. intros [a [b ->]] [c [d ->]]. exists (c ++ a)%string, (b ++ d)%string. rewrite !append_assoc. reflexivity.
Qed.
Lemma rstrip_spaces n : rstrip (spaces n) = "".
Proof. induction n as [|n IH]; auto. cbn [spaces rstrip]. now rewrite IH. Qed.
Lemma rstrip_name f n : no_space f = true -> rstrip (f ++ spaces n)%string = f.
Proof.
  intros N. induction f as [|c f IH]; [apply rstrip_spaces|]. simpl in N. apply andb_true_iff in N. destruct N as [N1 N2].
  cbn [append rstrip]. rewrite IH by auto. destruct f; auto. now destruct (is_space c).
Qed.
Lemma lstrip_name f : no_space f = true -> lstrip f = f.
Proof. destruct f as [|c f]; auto. simpl. intros N. apply andb_true_iff in N. now destruct (is_space c). Qed.
Lemma rstrip_left n s : rstrip s <> "" -> rstrip (spaces n ++ s)%string = (spaces n ++ rstrip s)%string.
Proof. intros N. induction n as [|n IH]; auto. cbn [spaces append rstrip]. rewrite IH. destruct n; simpl; [now destruct (rstrip s)|reflexivity]. Qed.
Lemma lstrip_left n s : lstrip (spaces n ++ s)%string = lstrip s.
Proof. induction n; simpl; auto. Qed.
Lemma strip_item a f b : no_space f = true -> strip (spaces a ++ f ++ spaces b)%string = f.
Proof.
  intros N. unfold strip. destruct f as [|c f].
  - simpl append. rewrite spaces_app, rstrip_spaces. reflexivity.
  - rewrite rstrip_left; rewrite rstrip_name by auto; [|discriminate]. rewrite lstrip_left. now apply lstrip_name.
Qed.

(** removing a word that stands alone after the name *)
Lemma replace_word w f a g b : has_char " " w = false -> w <> "" -> (forall x p, w = String x p -> x <> " "%char) ->
  contains w f = false ->
  replace w "" (spaces a ++ f ++ spaces (S g) ++ w ++ spaces b)%string = (spaces a ++ f ++ spaces (S g) ++ spaces b)%string.
Proof.
  intros H NE HX C. destruct w as [|x w]; [congruence|]. assert (NX : x <> " "%char) by (eapply HX; reflexivity).
  assert (L : forall n s, replace (String x w) "" (spaces n ++ s)%string = (spaces n ++ replace (String x w) "" s)%string).
  { induction n as [|n IH]; intros s; auto. cbn [spaces append]. rewrite replace_skip; [now rewrite IH|discriminate|].
    simpl. destruct (Ascii.eqb_spec x " "); [contradiction|reflexivity]. }
  rewrite L. f_equal. cbn [spaces append]. rewrite replace_sep by auto. f_equal. f_equal. rewrite L. f_equal.
  change (String x (w ++ spaces b)) with (String x w ++ spaces b)%string.
  rewrite replace_head by discriminate. cbn [append]. apply replace_none. now apply contains_spaces.
Qed.
Lemma no_nulls f a n : no_space f = true ->
  replace "nulls first" "" (replace "nulls last" "" (spaces a ++ f ++ spaces n))%string = (spaces a ++ f ++ spaces n)%string.
Proof.
  intros N.
  assert (G1 : contains "nulls last" (spaces a ++ f ++ spaces n)%string = false).
  { rewrite contains_left_spaces by discriminate. destruct (contains "nulls last" (f ++ spaces n)%string) eqn:E; auto.
    apply (contains_trans "s l") in E; [|reflexivity]. rewrite gap_no in E by (auto; discriminate). discriminate. }
  assert (G2 : contains "nulls first" (spaces a ++ f ++ spaces n)%string = false).
  { rewrite contains_left_spaces by discriminate. destruct (contains "nulls first" (f ++ spaces n)%string) eqn:E; auto.
    apply (contains_trans "s f") in E; [|reflexivity]. rewrite gap_no in E by (auto; discriminate). discriminate. }
  rewrite (replace_none "nulls last") by auto. now apply replace_none.
Qed.
Lemma lower_item i : lower (item_text i) =
  (spaces (it_left i) ++ lower (it_name i) ++ match it_word i with Some w => spaces (S (it_gap i)) ++ lower w | None => "" end ++ spaces (it_right i))%string.
Proof. unfold item_text. rewrite !lower_app, !lower_spaces. destruct (it_word i); [now rewrite lower_app, lower_spaces|reflexivity]. Qed.

Lemma parse_item i : good_item i -> parse_clause (item_text i) = (lower (it_name i), item_dir i).
Proof.
  destruct i as [a f w g b]. unfold good_item, item_dir. cbn [it_word it_name it_left it_gap it_right].
  intros [W [N [_ [D A]]]]. unfold parse_clause, clean. rewrite lower_item. cbn [it_word it_name it_left it_gap it_right].
  assert (N' : no_space (lower f) = true) by now rewrite no_space_lower.
  destruct w as [w|].
  - destruct (W w eq_refl) as [E|E]; rewrite E in *; cbn [String.eqb Ascii.eqb Bool.eqb] in *.
    + replace (contains "desc" (spaces a ++ lower f ++ (spaces (S g) ++ "asc") ++ spaces b)%string) with false.
      * change (if false then Desc else Asc) with Asc in A. f_equal. rewrite append_assoc.
        rewrite replace_word; auto; [|discriminate|intros x p H; injection H as <- _; discriminate].
        rewrite spaces_app, no_nulls by auto. now apply strip_item.
      * symmetry. rewrite contains_left_spaces by discriminate. cbn [spaces append]. rewrite contains_sep by (auto; discriminate). rewrite D. cbn [orb].
        rewrite append_assoc, contains_left_spaces by discriminate. cbn [append contains]. rewrite contains_spaces by discriminate. reflexivity.
    + replace (contains "desc" (spaces a ++ lower f ++ (spaces (S g) ++ "desc") ++ spaces b)%string) with true.
      * f_equal. rewrite append_assoc. rewrite replace_word; auto; [|discriminate|intros x p H; injection H as <- _; discriminate].
        rewrite spaces_app, no_nulls by auto. now apply strip_item.
      * symmetry. apply contains_spec. exists (spaces a ++ lower f ++ spaces (S g))%string, (spaces b). rewrite !append_assoc. reflexivity.
  - cbn [append]. replace (contains "desc" (spaces a ++ lower f ++ spaces b)%string) with false.
    + f_equal. rewrite (replace_none "asc").
      * rewrite no_nulls by auto. now apply strip_item.
      * rewrite contains_left_spaces by discriminate. destruct b as [|b]; [simpl; rewrite append_nil_r; auto|].
        cbn [spaces]. rewrite contains_sep by (auto; discriminate). rewrite A by auto. now rewrite contains_spaces by discriminate.
    + symmetry. rewrite contains_left_spaces by discriminate. destruct b as [|b]; [simpl; rewrite append_nil_r; auto|].
      cbn [spaces]. rewrite contains_sep by (auto; discriminate). rewrite D. now rewrite contains_spaces by discriminate.
Qed.

Lemma comma_lower c : Ascii.eqb (lower_ascii c) comma = Ascii.eqb c comma.
Proof. destruct c as [[] [] [] [] [] [] [] []]; vm_compute; reflexivity. Qed.
Lemma has_comma_lower s : has_char comma (lower s) = has_char comma s.
Proof. induction s as [|c s IH]; simpl; auto. now rewrite IH, comma_lower. Qed.
Lemma has_comma_spaces n : has_char comma (spaces n) = false.
Proof. induction n; auto. Qed.
Lemma item_no_comma i : good_item i -> has_char comma (item_text i) = false.
Proof.
  intros [W [_ [C _]]]. unfold item_text. rewrite !has_char_app, !has_comma_spaces, C. cbn [orb]. rewrite orb_false_r.
  destruct (it_word i) as [w|] eqn:E; auto. rewrite has_char_app, has_comma_spaces. cbn [orb].
  rewrite <- has_comma_lower. destruct (W w eq_refl) as [-> | ->]; reflexivity.
Qed.
Lemma split_join l : l <> [] -> (forall s, In s l -> has_char comma s = false) -> split_char comma (join_with "," l) = l.
Proof.
  induction l as [|s l IH]; [congruence|]. intros _ H. destruct l as [|t l].
  - simpl. apply split_char_nochar. apply H. now left.
  - change (join_with "," (s :: t :: l)) with (s ++ String comma (join_with "," (t :: l)))%string.
    rewrite split_char_app by (apply H; now left). rewrite IH; [reflexivity|discriminate|]. intros x X. apply H. now right.
Qed.

(** ** C37: the names and directions written, in the order written.  Names are lower cased, as field lookup does. *)
Theorem C37_text : forall l : list item, l <> [] -> (forall i, In i l -> good_item i) ->
  parse_order_text (join_with "," (map item_text l)) = map (fun i => (lower (it_name i), item_dir i)) l.
Proof.
  intros l NE G. unfold parse_order_text. rewrite split_join.
  - rewrite map_map. apply map_ext_in. intros i I. apply parse_item. auto.
  - destruct l; [congruence|discriminate].
  - intros s S. apply in_map_iff in S. destruct S as [i [<- I]]. apply item_no_comma. auto.
Qed.
Print Assumptions C37_text.
Example text_example :
  join_with "," (map item_text [Item 0 "orders.total_revenue" (Some "DESC") 0 0; Item 1 "Customers.region" None 0 2; Item 0 "id" (Some "asc") 1 0])
    = "orders.total_revenue DESC, Customers.region  ,id  asc"
  /\ good_item (Item 0 "orders.total_revenue" (Some "DESC") 0 0) /\ good_item (Item 1 "Customers.region" None 0 2).
Proof.
  split; [reflexivity|]. split; unfold good_item; cbn; repeat split; try reflexivity; try (intros w H; first [discriminate H|injection H as <-; auto]);
  try (intros H; first [discriminate H|reflexivity]).
Qed.

(** A name in which desc occurs is always descending, and is not the name looked up. *)
Lemma lstrip_length s : String.length (lstrip s) <= String.length s.
Proof. induction s as [|c s IH]; simpl; auto. destruct (is_space c); simpl; lia. Qed.
Lemma rstrip_length s : String.length (rstrip s) <= String.length s.
Proof. induction s as [|c s IH]; simpl; auto. destruct (rstrip s); simpl in *; destruct (is_space c); simpl; lia. Qed.
Lemma replace_length old s : old <> "" -> String.length (replace old "" s) <= String.length s.
Proof.
  intros N. destruct (contains old s) eqn:E.
  - apply replace_shorter in E; auto. lia.
  - rewrite replace_none by auto. lia.
Qed.
Lemma clean_length kw s : String.length (clean kw s) <= String.length (replace kw "" (lower s)).
Proof.
  unfold clean, strip. eapply Nat.le_trans; [apply lstrip_length|]. eapply Nat.le_trans; [apply rstrip_length|].
  eapply Nat.le_trans; [apply replace_length; discriminate|]. apply replace_length. discriminate.
Qed.
Theorem C37_keyword_name_refuted :
  (forall f, contains "desc" (lower f) = true -> snd (parse_clause f) = Desc /\ fst (parse_clause f) <> lower f)
  /\ (forall f, contains "desc" (lower f) = false -> contains "asc" (lower f) = true -> fst (parse_clause f) <> lower f).
Proof.
  split.
  - intros f C. unfold parse_clause. rewrite C. split; [reflexivity|]. cbn [fst]. intros E.
    pose proof (clean_length "desc" f) as L. rewrite E in L. apply replace_shorter in C; [|discriminate]. lia.
  - intros f D C. unfold parse_clause. rewrite D. cbn [fst]. intros E.
    pose proof (clean_length "asc" f) as L. rewrite E in L. apply replace_shorter in C; [|discriminate]. lia.
Qed.
Print Assumptions C37_keyword_name_refuted.
Example description_example : parse_order_text "orders.description" = [("orders.ription", Desc)]
  /\ parse_order_text "cascades" = [("cades", Asc)].
Proof. split; reflexivity. Qed.

(** A request for nulls first is dropped: the same ordering as without it. *)
Theorem C37_nulls_first_refuted : parse_order_text "orders.id desc nulls first" = parse_order_text "orders.id desc nulls last".
Proof. reflexivity. Qed.
Print Assumptions C37_nulls_first_refuted.

(** The list form: fields as given; descending exactly for "desc" in any case. *)
Theorem C37_json : forall l, map fst (parse_order_json l) = map fst l
  /\ forall n f s, nth_error l n = Some (f, s) -> exists d, nth_error (parse_order_json l) n = Some (f, d)
     /\ (d = Desc <-> exists t, s = Some t /\ lower t = "desc").
Proof.
  intros l. unfold parse_order_json. split; [rewrite map_map; now apply map_ext|]. intros n f s H.
  rewrite nth_error_map, H. cbn. eexists. split; [reflexivity|]. unfold parse_sort. destruct s as [t|].
  - destruct (String.eqb_spec (lower t) "desc") as [E|N]; split; auto; [eauto|discriminate|intros [u [U V]]; injection U as <-; contradiction].
  - split; [discriminate|intros [t [H1 _]]; discriminate].
Qed.
Print Assumptions C37_json.

(** ** The clauses of a query *)
Lemma concat_singletons {A B} (R : A -> list B -> Prop) l ys : Forall2 R l ys -> (forall a y, R a y -> exists b, y = [b]) ->
  exists bs, List.concat ys = bs /\ Forall2 (fun a b => R a [b]) l bs.
Proof.
  intros F S. induction F as [|a y l ys H F IH]; [exists []; split; constructor|]. destruct IH as [bs [E G]]. destruct (S a y H) as [b ->].
  exists (b :: bs). split; [simpl; now rewrite E|constructor; auto].
Qed.
(** a query that asks for an order has one clause per item, in the order asked, on the alias of the item's field,
    in the direction asked; it is refused at primary key grain *)
Theorem C37_clauses : forall get_field qt no_group_by metrics dimensions o cs,
  asked o = true ->
  (args <- order_args qt no_group_by o ;; order_clauses get_field no_group_by metrics dimensions args) = Ok cs ->
  no_group_by = false
  /\ Forall2 (fun a c => exists m, get_field (fst a) = Ok (cl_column c, m) /\ cl_dir c = snd a /\ cl_nulls c = Some NullsLast)
       (match o with OrderText t => parse_order_text t | OrderJson l => parse_order_json l | NoOrder => [] end) cs.
Proof.
  intros get_field qt ng ms ds o cs A H. unfold order_args in H. rewrite A in H. destruct ng; [discriminate H|]. split; auto. cbn [bind] in H.
  set (l := match o with OrderText t => _ | OrderJson l => _ | NoOrder => _ end) in *. clearbody l. unfold order_clauses in H.
  apply bind_ok in H. destruct H as [ys [M E]]. injection E as <-. apply mapM_ok in M.
  assert (F : Forall2 (fun (a : string * dir) y => order_clause get_field (ms ++ ds) (Some a) = Ok y) l ys).
  { clear - M. remember (map Some l) as al. revert l Heqal. induction M as [|a y al ys H M IH]; intros [|x l] E; try discriminate; constructor.
    - injection E as -> _. exact H.
    - apply IH. now injection E. }
  apply concat_singletons in F.
  - destruct F as [bs [-> F]]. clear - F. induction F as [|a b l bs H F IH]; constructor; auto. unfold order_clause in H. destruct a as [f d].
    apply bind_ok in H. destruct H as [[al m] [G E]]. injection E as <-. exists m. auto.
  - intros [f d] y G. unfold order_clause in G. apply bind_ok in G. destruct G as [x [_ E]]. injection E as <-. eauto.
Qed.
Print Assumptions C37_clauses.
(** a query that asks for no order is ordered by its first metric, descending, or first dimension, ascending, in
    three warehouses and not at all in the others *)
Theorem C37_default : forall get_field qt no_group_by metrics dimensions o cs,
  asked o = false ->
  (args <- order_args qt no_group_by o ;; order_clauses get_field no_group_by metrics dimensions args) = Ok cs ->
  cs = [] \/ exists f al m, hd_error (metrics ++ dimensions) = Some f /\ get_field f = Ok (al, m) /\ In qt ["SNOWFLAKE"; "REDSHIFT"; "DUCK_DB"]
     /\ no_group_by = false /\ cs = [Clause al (if m then Desc else Asc) (Some NullsLast)].
Proof.
  intros get_field qt ng ms ds o cs A H. unfold order_args in H. rewrite A in H.
  destruct (mem qt _) eqn:M; cbn [bind] in H; unfold order_clauses in H; destruct ng; try (injection H as <-; auto; fail).
  apply bind_ok in H. destruct H as [ys [B E]]. injection E as <-. cbn [mapM order_clause] in B.
  destruct (ms ++ ds) as [|f fs].
  - cbn in B. injection B as <-. auto.
  - cbn in B. destruct (get_field f) as [[al m]|] eqn:G; [|discriminate B]. cbn in B. injection B as <-. right. exists f, al, m. apply mem_In in M. auto.
Qed.
Print Assumptions C37_default.

(** * C44 *)
(** ** Specification: rows are looked up by column; the order asked for sorts by each clause in turn, NULLs after
    everything else *)
Section Sorting.
  Variable row : Type.
  Variable value : row -> string -> option Z.
  Definition flip (d : dir) (c : comparison) : comparison := match d with Asc => c | Desc => CompOpp c end.
  (** [last]: NULLs sort after the others *)
  Definition compare_col (d : dir) (last : bool) (a b : option Z) : comparison :=
    match a, b with
    | None, None => Eq
    | None, Some _ => if last then Gt else Lt
    | Some _, None => if last then Lt else Gt
    | Some x, Some y => flip d (x ?= y)%Z
    end.
  Fixpoint compare_by (nulls_last : clause -> bool) (cs : list clause) (a b : row) : comparison :=
    match cs with
    | [] => Eq
    | c :: cs => match compare_col (cl_dir c) (nulls_last c) (value a (cl_column c)) (value b (cl_column c)) with
                 | Eq => compare_by nulls_last cs a b | x => x end
    end.
  (** how the warehouse places NULLs: as written; when nothing is written Druid, SQL Server and Synapse take NULL as
      the smallest value *)
  Definition warehouse_nulls_last (c : clause) : bool :=
    match cl_nulls c with
    | Some NullsLast => true
    | Some NullsFirst => false
    | None => match cl_dir c with Asc => false | Desc => true end
    end.
  Definition warehouse_compare (b : builder) (cs : list clause) : row -> row -> comparison :=
    compare_by warehouse_nulls_last (map (printed b) cs).
  Definition asked_compare (cs : list clause) : row -> row -> comparison := compare_by (fun _ => true) cs.

  Lemma compare_ext b cs x y : Forall (fun c => cl_nulls c = Some NullsLast) cs ->
    (forall c, In c cs -> prints_nulls b = true \/ cl_dir c = Desc \/ (value x (cl_column c) <> None /\ value y (cl_column c) <> None)) ->
    warehouse_compare b cs x y = asked_compare cs x y.
  Proof.
    intros F H. unfold warehouse_compare, asked_compare. induction F as [|c cs N F IH]; [reflexivity|]. cbn [map compare_by].
    rewrite IH by (intros c' I; apply H; now right).
    assert (E : compare_col (cl_dir (printed b c)) (warehouse_nulls_last (printed b c)) (value x (cl_column (printed b c))) (value y (cl_column (printed b c)))
             = compare_col (cl_dir c) true (value x (cl_column c)) (value y (cl_column c))); [|now rewrite E].
    unfold printed, warehouse_nulls_last. cbn [cl_column cl_dir cl_nulls]. destruct (H c (or_introl eq_refl)) as [P|[P|[P1 P2]]].
    - now rewrite P, N.
    - destruct (prints_nulls b); [now rewrite N|now rewrite P].
    - destruct (value x (cl_column c)), (value y (cl_column c)); congruence || reflexivity.
  Qed.

  (** Seven warehouses compare any two rows as asked. *)
  Theorem C44_nulls_last : forall qt b cs x y, query_lookup qt = Ok b -> ~ In qt ["DRUID"; "SQL_SERVER"; "AZURE_SYNAPSE"] ->
    Forall (fun c => cl_nulls c = Some NullsLast) cs -> warehouse_compare b cs x y = asked_compare cs x y.
  Proof.
    intros qt b cs x y L N F. apply compare_ext; auto. intros c _. left. unfold query_lookup in L. cbn [find fst snd] in L.
    repeat (match type of L with context [String.eqb ?s qt] => destruct (String.eqb_spec s qt) as [<-|]; [injection L as <-; first [reflexivity|exfalso; apply N; cbn; tauto]|] end).
    discriminate L.
  Qed.
  (** The other three do for descending clauses and for rows without NULL in the ascending ones. *)
  Theorem C44_others_partial : forall b cs x y, Forall (fun c => cl_nulls c = Some NullsLast) cs ->
    (forall c, In c cs -> cl_dir c = Asc -> value x (cl_column c) <> None /\ value y (cl_column c) <> None) ->
    warehouse_compare b cs x y = asked_compare cs x y.
  Proof.
    intros b cs x y F H. apply compare_ext; auto. intros c I. right. destruct (cl_dir c) eqn:D; [right; auto|now left].
  Qed.
End Sorting.
Print Assumptions C44_nulls_last.
Print Assumptions C44_others_partial.

Theorem C44_nulls_refuted : forall qt, In qt ["DRUID"; "SQL_SERVER"; "AZURE_SYNAPSE"] ->
  exists b cs (x y : option Z), query_lookup qt = Ok b /\ Forall (fun c => cl_nulls c = Some NullsLast) cs
  /\ warehouse_compare (option Z) (fun r _ => r) b cs x y = Lt /\ asked_compare (option Z) (fun r _ => r) cs x y = Gt.
Proof.
  intros qt [<-|[<-|[<-|[]]]]; [exists PostgresBuilder|exists MssqlBuilder|exists MssqlBuilder];
  exists [Clause "orders_id" Asc (Some NullsLast)], None, (Some 1%Z); repeat split; repeat constructor.
Qed.
Print Assumptions C44_nulls_refuted.

(** What is printed: the clauses in order, each with its direction; null placement for seven warehouses; the limit
    once, as TOP for T-SQL and as LIMIT elsewhere. *)
Theorem C44_text : forall qt b cs n, query_lookup qt = Ok b ->
  (cs <> [] -> orderby_sql b cs = (" ORDER BY " ++ join_with "," (map (fun c => cl_column c ++ (match cl_dir c with Asc => " ASC" | Desc => " DESC" end)
       ++ (if mem qt ["DRUID"; "SQL_SERVER"; "AZURE_SYNAPSE"] then "" else match cl_nulls c with Some NullsLast => " NULLS LAST" | Some NullsFirst => " NULLS FIRST" | None => "" end)) cs))%string)
  /\ (top_sql b (Some n), limit_sql b (Some n)) = (if mem qt ["SQL_SERVER"; "AZURE_SYNAPSE"] then ("TOP (" ++ nat_str n ++ ") ", "") else ("", " LIMIT " ++ nat_str n))%string
  /\ (top_sql b None, limit_sql b None) = ("", "").
Proof.
  intros qt b cs n L. unfold query_lookup in L. cbn [find fst snd] in L.
  repeat (match type of L with context [String.eqb ?s qt] => destruct (String.eqb_spec s qt) as [<-|];
    [injection L as <-; (split; [intros NE; unfold orderby_sql; destruct cs as [|c cs]; [congruence|reflexivity]|split; reflexivity])|] end).
  discriminate L.
Qed.
Print Assumptions C44_text.

(** Every warehouse of the definitions has a dialect, others have none. *)
Theorem C44_dialects : forall qt, (exists b, query_lookup qt = Ok b) <->
  In qt ["SNOWFLAKE"; "BIGQUERY"; "REDSHIFT"; "POSTGRES"; "DRUID"; "SQL_SERVER"; "DUCK_DB"; "DATABRICKS"; "AZURE_SYNAPSE"; "TRINO"].
Proof.
  intros qt. split.
  - intros [b L]. unfold query_lookup in L. cbn [find fst snd] in L.
    repeat (match type of L with context [String.eqb ?s qt] => destruct (String.eqb_spec s qt) as [<-|]; [cbn; tauto|] end). discriminate L.
  - cbn. intros [<-|[<-|[<-|[<-|[<-|[<-|[<-|[<-|[<-|[<-|[]]]]]]]]]]]; eexists; reflexivity.
Qed.
Print Assumptions C44_dialects.

(** Cumulative, funnel and merged queries drop the order asked for, although they keep the limit: which rows are
    returned is then up to the warehouse. *)
Theorem C44_dropped_order_refuted : forall k cs, In k [Cumulative; Funnel; Merged] -> cs <> [] -> outer_order k cs <> cs.
Proof. intros k cs [<-|[<-|[<-|[]]]] N; cbn; congruence. Qed.
Print Assumptions C44_dropped_order_refuted.
Theorem C44_kept_order : forall k cs, In k [Single; Arbitrary] -> outer_order k cs = cs.
Proof. intros k cs [<-|[<-|[]]]; reflexivity. Qed.
Print Assumptions C44_kept_order.

(** ** What asks for an order, and what is printed without one *)
(** A text asks for an order unless it is empty, and so does a list. *)
Theorem C37_asked : forall o, asked o = true <-> (exists c t, o = OrderText (String c t)) \/ (exists x l, o = OrderJson (x :: l)).
Proof.
  intros o. split.
  - destruct o as [|[|c t]|[|x l]]; try discriminate; eauto.
  - intros [(c & t & ->)|(x & l & ->)]; reflexivity.
Qed.
Print Assumptions C37_asked.
(** Without one the query succeeds when its first field does, and whether it is ordered depends on the warehouse, the grain and the fields. *)
Theorem C37_default_exact : forall get_field qt no_group_by metrics dimensions o,
  (forall c t, o <> OrderText (String c t)) -> (forall x l, o <> OrderJson (x :: l)) ->
  (args <- order_args qt no_group_by o ;; order_clauses get_field no_group_by metrics dimensions args)
  = if no_group_by then Ok [] else
    match metrics ++ dimensions with
    | [] => Ok []
    | f :: _ => if mem qt ["SNOWFLAKE"; "REDSHIFT"; "DUCK_DB"]
                then match get_field f with Ok (al, m) => Ok [Clause al (if m then Desc else Asc) (Some NullsLast)] | Err e => Err e end
                else Ok []
    end.
Proof.
  intros get_field qt ng ms ds o A B. unfold order_args.
  assert (N : asked o = false) by (destruct (asked o) eqn:E; [|reflexivity]; apply C37_asked in E; destruct E as [(c & t & E)|(x & l & E)]; [destruct (A c t E)|destruct (B x l E)]).
  rewrite N. destruct (mem qt _); cbn [bind]; unfold order_clauses; destruct ng; try reflexivity.
  - cbn [mapM]. unfold order_clause. destruct (ms ++ ds) as [|f r]; [reflexivity|]. destruct (get_field f) as [[al m]|e]; reflexivity.
  - destruct (ms ++ ds); reflexivity.
Qed.
Print Assumptions C37_default_exact.
Example C37_default_case : (args <- order_args "REDSHIFT" false (OrderText "") ;; order_clauses (fun f => Ok (f, true)) false ["revenue"] [] args) = Ok [Clause "revenue" Desc (Some NullsLast)].
Proof. reflexivity. Qed.
(** No clause prints nothing; a warehouse without a dialect is a missing key. *)
Theorem C44_nothing : (forall b, orderby_sql b [] = "") /\ forall qt,
  ~ In qt ["SNOWFLAKE"; "BIGQUERY"; "REDSHIFT"; "POSTGRES"; "DRUID"; "SQL_SERVER"; "DUCK_DB"; "DATABRICKS"; "AZURE_SYNAPSE"; "TRINO"] -> query_lookup qt = Err KeyError.
Proof.
  split; [reflexivity|]. intros qt N. destruct (query_lookup qt) as [b|e] eqn:E; [exfalso; apply N, C44_dialects; eauto|].
  unfold query_lookup in E. destruct (find _ _); [discriminate|]. exact (eq_sym E).
Qed.
Print Assumptions C44_nothing.
