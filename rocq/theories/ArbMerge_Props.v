(** C33: merging arbitrary queries, for all arguments, projects and data. *)
From Verif Require Import PyBase PyStr PySort PyList Merged_Model MergedRows_Spec ArbMerge_Model ArbMerge_Spec.
From Coq Require Import ZArith Lia.
Local Open Scope string_scope.
Local Open Scope list_scope.
Local Open Scope nat_scope.

(** ** Validation *)
(** An entry of merged_queries that has to be accepted *)
Definition join_ok (x : jv) : Prop :=
  exists d f s, x = JDict d /\ assoc "field" d = Some (JStr f) /\ assoc "source_field" d = Some (JStr s).
(** what Python takes for false *)
Definition empty_value (v : jv) : Prop := v = JStr "" \/ v = JList [] \/ v = JDict [] \/ v = JOther false.
Definition entry_ok (i : nat) (q : jv) : Prop :=
  exists d, q = JDict d
    /\ (exists m, assoc "metrics" d = Some (JList m)) /\ (exists m, assoc "dimensions" d = Some (JList m))
    /\ (forall v, assoc "funnel" d = Some v -> empty_value v)
    /\ (forall v, assoc "join_fields" d = Some v -> exists l, v = JList l)
    /\ (i > 0 -> exists l, assoc "join_fields" d = Some (JList l) /\ l <> [] /\ forall x, In x l -> join_ok x).
(** An entry afterwards: the join fields of a query after the first are lower case and have no other keys. *)
Definition lower_join (x : jv) : jv :=
  match x with
  | JDict d => match assoc "field" d, assoc "source_field" d with
               | Some (JStr f), Some (JStr s) => JDict [("field", JStr (lower f)); ("source_field", JStr (lower s))]
               | _, _ => x
               end
  | _ => x
  end.
Definition cleaned (i : nat) (q q' : jv) : Prop :=
  if Nat.eqb i 0 then q' = q
  else exists d d', q = JDict d /\ q' = JDict d'
       /\ (forall k, k <> "join_fields" -> assoc k d' = assoc k d)
       /\ exists l, assoc "join_fields" d = Some (JList l) /\ assoc "join_fields" d' = Some (JList (map lower_join l)).

Lemma truthy_spec v : truthy v = false <-> empty_value v.
Proof.
  unfold empty_value. destruct v as [s|l|d|b]; cbn [truthy]; split; intros H.
  - left. apply negb_false_iff, String.eqb_eq in H. now subst.
  - apply negb_false_iff, String.eqb_eq. destruct H as [H|[H|[H|H]]]; congruence.
  - right. left. destruct l; [reflexivity|discriminate].
  - destruct H as [H|[H|[H|H]]]; try discriminate. now injection H as ->.
  - right. right. left. destruct d; [reflexivity|discriminate].
  - destruct H as [H|[H|[H|H]]]; try discriminate. now injection H as ->.
  - subst. tauto.
  - destruct H as [H|[H|[H|H]]]; try discriminate. now injection H as ->.
Qed.
Lemma clean_join_ok x : (exists p, clean_join x = Ok p) <-> join_ok x.
Proof.
  split.
  - intros [p H]. destruct x as [s|l|d|b]; simpl in H; try (destruct (contains "field" s); discriminate);
      try (destruct (has_str "field" l); discriminate); try discriminate.
    destruct (assoc "field" d) as [[f| | |]|] eqn:F; try discriminate.
    destruct (assoc "source_field" d) as [[s| | |]|] eqn:S; try discriminate. exists d, f, s. auto.
  - intros (d & f & s & -> & F & S). simpl. rewrite F, S. eauto.
Qed.
Lemma clean_join_lower x p : clean_join x = Ok p -> jf_dict p = lower_join x.
Proof.
  intros H. destruct x as [s|l|d|b]; simpl in H; try (destruct (contains "field" s); discriminate);
    try (destruct (has_str "field" l); discriminate); try discriminate. simpl.
  destruct (assoc "field" d) as [[f| | |]|]; try discriminate.
  destruct (assoc "source_field" d) as [[s| | |]|]; try discriminate. injection H as <-. reflexivity.
Qed.
Lemma list_key_ok k d : list_key k d = true <-> exists m, assoc k d = Some (JList m).
Proof.
  unfold list_key. destruct (assoc k d) as [[s|l|d'|b]|]; simpl; split; try discriminate; try (intros [m E]; congruence).
  intros _. exists l. reflexivity.
Qed.
Lemma mapM_all {A B} (f : A -> res B) l : (forall x, In x l -> exists y, f x = Ok y) -> exists ys, mapM f l = Ok ys.
Proof.
  induction l as [|x l IH]; intros H; simpl; [eauto|].
  destruct (H x (or_introl eq_refl)) as [y ->]. cbn [bind].
  destruct (IH (fun z I => H z (or_intror I))) as [ys ->]. cbn [bind]. eauto.
Qed.
Lemma assoc_set {B} k k' (v : B) d : assoc k (set_item k' v d) = if String.eqb k k' then Some v else assoc k d.
Proof.
  induction d as [|[q w] d IH]; simpl.
  - destruct (String.eqb k k'); reflexivity.
  - destruct (String.eqb k' q) eqn:E; simpl.
    + apply String.eqb_eq in E. subst q. destruct (String.eqb k k'); reflexivity.
    + rewrite IH. destruct (String.eqb k q) eqn:F; [|reflexivity]. apply String.eqb_eq in F. subst q.
      destruct (String.eqb k k') eqn:G; [|reflexivity]. apply String.eqb_eq in G. subst. rewrite String.eqb_refl in E. discriminate.
Qed.

Lemma validate_one_ok first i q : (first = true <-> i = 0) ->
  ((exists q', validate_one first q = Ok q') <-> entry_ok i q)
  /\ forall q', validate_one first q = Ok q' -> cleaned i q q'.
Proof.
  intros FI. destruct q as [s|l|d|b]; simpl validate_one;
    try (split; [split; [intros [q' H]; discriminate|intros (d & E & _); discriminate]|intros q' H; discriminate]).
  destruct (list_key "metrics" d) eqn:LM.
  2:{ simpl. split; [|discriminate]. split; [intros [q' H]; discriminate|].
      intros (d' & E & M & _). injection E as <-. apply list_key_ok in M. congruence. }
  destruct (list_key "dimensions" d) eqn:LD.
  2:{ simpl. split; [|discriminate]. split; [intros [q' H]; discriminate|].
      intros (d' & E & _ & M & _). injection E as <-. apply list_key_ok in M. congruence. }
  apply list_key_ok in LM, LD. simpl.
  destruct (match assoc "funnel" d with Some v => truthy v | None => false end) eqn:FU.
  { split; [|discriminate]. split; [intros [q' H]; discriminate|].
    intros (d' & E & _ & _ & M & _). injection E as <-. destruct (assoc "funnel" d) as [v|]; [|discriminate].
    rewrite (proj2 (truthy_spec v) (M v eq_refl)) in FU. discriminate. }
  assert (FU' : forall v, assoc "funnel" d = Some v -> empty_value v).
  { intros v E. rewrite E in FU. apply truthy_spec. exact FU. }
  destruct (match assoc "join_fields" d with Some v => v | None => JList [] end) as [s|jfs|d0|b0] eqn:JF;
    try (split; [|discriminate]; split; [intros [q' H]; discriminate|];
         intros (d' & E & _ & _ & _ & M & _); injection E as <-;
         destruct (assoc "join_fields" d) as [v|]; [|discriminate];
         destruct (M v eq_refl) as [l' ->]; discriminate).
  assert (JF' : forall v, assoc "join_fields" d = Some v -> exists l, v = JList l).
  { intros v E. rewrite E in JF. subst v. eauto. }
  destruct first.
  - assert (i = 0) as -> by (apply FI; reflexivity). split.
    + split; [|eauto]. intros _. exists d. repeat (split; [assumption || reflexivity|]). intros G. lia.
    + intros q' H. injection H as <-. reflexivity.
  - assert (i <> 0) as NI by (intros E; apply FI in E; discriminate).
    destruct jfs as [|x jfs].
    + split; [|discriminate]. split; [intros [q' H]; discriminate|].
      intros (d' & E & _ & _ & _ & _ & M). injection E as <-. destruct (M ltac:(lia)) as (l & A & N & _).
      rewrite A in JF. injection JF as ->. congruence.
    + assert (AJ : assoc "join_fields" d = Some (JList (x :: jfs))).
      { destruct (assoc "join_fields" d) as [v|]; [congruence|discriminate]. }
      split.
      * split.
        -- intros [q' H]. apply bind_ok in H. destruct H as (l & M & _). exists d.
           repeat (split; [assumption || reflexivity|]). intros _. exists (x :: jfs). split; [exact AJ|]. split; [discriminate|].
           intros y I. apply clean_join_ok. apply mapM_ok in M. clear - M I.
           induction M as [|a b l l' E M IH]; [destruct I|]. destruct I as [->|I]; [eauto|auto].
        -- intros (d' & E & _ & _ & _ & _ & M). injection E as <-. destruct (M ltac:(lia)) as (l & A & N & C).
           rewrite A in AJ. injection AJ as ->.
           destruct (mapM_all clean_join (x :: jfs)) as [ys ->].
           { intros y I. apply clean_join_ok. apply C. exact I. }
           cbn [bind]. eauto.
      * intros q' H. apply bind_ok in H. destruct H as (l & M & H). injection H as <-.
        unfold cleaned. apply Nat.eqb_neq in NI. rewrite NI. exists d. eexists. split; [reflexivity|]. split; [reflexivity|].
        split.
        -- intros k N. rewrite assoc_set. apply String.eqb_neq in N. rewrite N. reflexivity.
        -- exists (x :: jfs). split; [exact AJ|]. rewrite assoc_set, String.eqb_refl. do 2 f_equal.
           apply mapM_ok in M. clear - M. induction M as [|a b l l' E M IH]; [reflexivity|]. simpl.
           f_equal; [apply clean_join_lower; exact E|exact IH].
Qed.

Lemma nth_cons {A} (x : A) l i : nth_error (x :: l) i = match i with O => Some x | S j => nth_error l j end.
Proof. destruct i; reflexivity. Qed.
Lemma forall2_nth {A B} (R : A -> B -> Prop) l l' : Forall2 R l l' ->
  List.length l = List.length l' /\ forall i x, nth_error l i = Some x -> exists y, nth_error l' i = Some y /\ R x y.
Proof.
  induction 1 as [|a b l l' H F [L IH]]; [split; [reflexivity|intros [|i] x E; discriminate]|].
  split; [simpl; congruence|]. intros [|i] x E; simpl in *; [injection E as <-; eauto|auto].
Qed.

(** merged_queries is accepted iff every entry is acceptable; accepted entries keep everything but the join
    fields of the later queries, which become lower case. *)
Theorem C33_validate_iff l : (exists l', validate l = Ok l') <-> forall i q, nth_error l i = Some q -> entry_ok i q.
Proof.
  destruct l as [|q0 r]; simpl.
  { split; [intros _ [|i] q E; discriminate|eauto]. }
  destruct (validate_one_ok true 0 q0) as [V0 _]; [tauto|]. split.
  - intros [l' H]. apply bind_ok in H. destruct H as (q' & E0 & H). apply bind_ok in H. destruct H as (r' & E & H).
    intros [|i] q N; simpl in N.
    + injection N as <-. apply V0. eauto.
    + apply mapM_ok in E. destruct (forall2_nth _ _ _ E) as [_ F]. destruct (F i q N) as (y & _ & Y).
      destruct (validate_one_ok false (S i) q) as [V _]; [split; discriminate|]. apply V. eauto.
  - intros H. destruct (proj2 V0 (H 0 q0 eq_refl)) as [q' ->]. cbn [bind].
    destruct (mapM_all (validate_one false) r) as [r' ->]; [|cbn [bind]; eauto].
    intros q I. apply In_nth_error in I. destruct I as [i N].
    destruct (validate_one_ok false (S i) q) as [V _]; [split; discriminate|]. apply V. apply (H (S i)). exact N.
Qed.
Theorem C33_validate_result l l' : validate l = Ok l' ->
  List.length l' = List.length l /\ forall i q, nth_error l i = Some q -> exists q', nth_error l' i = Some q' /\ cleaned i q q'.
Proof.
  destruct l as [|q0 r]; simpl; intros H.
  { injection H as <-. split; [reflexivity|intros [|i] q E; discriminate]. }
  apply bind_ok in H. destruct H as (q' & E0 & H). apply bind_ok in H. destruct H as (r' & E & H). injection H as <-.
  apply mapM_ok in E. destruct (forall2_nth _ _ _ E) as [L F]. split; [simpl; congruence|].
  intros [|i] q N; simpl in N.
  - injection N as <-. exists q'. split; [reflexivity|]. destruct (validate_one_ok true 0 q0) as [_ V]; [tauto|]. auto.
  - destruct (F i q N) as (y & Y1 & Y2). exists y. split; [exact Y1|].
    destruct (validate_one_ok false (S i) q) as [_ V]; [split; discriminate|]. auto.
Qed.
(** A rejected argument is a QueryError as long as join fields are dicts. *)
Theorem C33_validate_error l e : validate l = Err e ->
  (forall i d jfs x, nth_error l i = Some (JDict d) -> assoc "join_fields" d = Some (JList jfs) -> In x jfs -> exists d', x = JDict d') ->
  e = QueryError.
Proof.
  assert (V : forall first q e, validate_one first q = Err e ->
            (forall d jfs x, q = JDict d -> assoc "join_fields" d = Some (JList jfs) -> In x jfs -> exists d', x = JDict d') -> e = QueryError).
  { intros first q e' H C. destruct q as [s|l0|d|b]; simpl in H; try congruence.
    destruct (negb _); [congruence|]. destruct (match assoc "funnel" d with Some v => _ | None => _ end); [congruence|].
    destruct (assoc "join_fields" d) as [v|] eqn:A; [|destruct first; congruence].
    destruct v as [s|jfs|d0|b0]; try congruence. destruct first; [discriminate|]. destruct jfs as [|x jfs]; [congruence|].
    apply bind_err in H. destruct H as [H|(y & _ & H)]; [|discriminate].
    apply mapM_err in H. destruct H as (y & I & H). destruct (C d (x :: jfs) y eq_refl A I) as [d' ->].
    simpl in H. destruct (assoc "field" d') as [[f| | |]|]; try congruence.
    destruct (assoc "source_field" d') as [[s| | |]|]; congruence. }
  destruct l as [|q0 r]; simpl; intros H C; [discriminate|].
  apply bind_err in H. destruct H as [H|(q' & _ & H)].
  - apply (V true q0 e H). intros d jfs x -> A I. apply (C 0 d jfs x eq_refl A I).
  - apply bind_err in H. destruct H as [H|(r' & _ & H)]; [|discriminate].
    apply mapM_err in H. destruct H as (q & I & H). apply (V false q e H).
    intros d jfs x -> A J. apply In_nth_error in I. destruct I as [i N]. apply (C (S i) d jfs x N A J).
Qed.
(** What a join field that is not a dict raises: "field" in it is looked for in a text and among the members of a list, and only then
    is it taken for a dict; without it the entry is refused, and a number cannot be asked *)
Inductive raises : jv -> exc -> Prop :=
| r_text a b : raises (JStr (a ++ "field" ++ b)%string) AttributeError
| r_text_without s : (forall a b, s <> (a ++ "field" ++ b)%string) -> raises (JStr s) QueryError
| r_list l : In (JStr "field") l -> raises (JList l) AttributeError
| r_list_without l : ~ In (JStr "field") l -> raises (JList l) QueryError
| r_other b : raises (JOther b) TypeError.
Lemma has_str_In k l : has_str k l = true <-> In (JStr k) l.
Proof.
  unfold has_str. rewrite existsb_exists. split.
  - intros ([s|m|d|b] & I & E); try discriminate. apply String.eqb_eq in E. now subst.
  - intros I. exists (JStr k). split; [exact I|]. apply String.eqb_refl.
Qed.
Theorem C33_other_join_fields pre d jfs1 x jfs2 post e : pre <> [] -> (forall i q, nth_error pre i = Some q -> entry_ok i q) ->
  (exists m, assoc "metrics" d = Some (JList m)) -> (exists m, assoc "dimensions" d = Some (JList m)) -> (forall v, assoc "funnel" d = Some v -> empty_value v) ->
  assoc "join_fields" d = Some (JList (jfs1 ++ x :: jfs2)) -> (forall y, In y jfs1 -> join_ok y) -> raises x e ->
  validate (pre ++ JDict d :: post) = Err e.
Proof.
  intros P V M D F J O R.
  assert (X : clean_join x = Err e).
  { destruct R as [a b|s N|l I|l I|b]; cbn [clean_join].
    - replace (contains "field" (a ++ "field" ++ b)) with true; [reflexivity|]. symmetry. apply contains_spec. eauto.
    - destruct (contains "field" s) eqn:C; [|reflexivity]. apply contains_spec in C. destruct C as (a & b & C). now apply N in C.
    - now rewrite (proj2 (has_str_In _ _) I).
    - destruct (has_str "field" l) eqn:C; [|reflexivity]. apply has_str_In in C. contradiction.
    - reflexivity. }
  assert (L : validate_one false (JDict d) = Err e).
  { unfold validate_one. rewrite (proj2 (list_key_ok _ _) M), (proj2 (list_key_ok _ _) D). cbn [negb andb].
    replace (match assoc "funnel" d with Some v => truthy v | None => false end) with false by (destruct (assoc "funnel" d) as [v|]; [|reflexivity]; symmetry; apply truthy_spec; auto).
    rewrite J. destruct (jfs1 ++ x :: jfs2) as [|y ys] eqn:Q; [destruct jfs1; discriminate|]. rewrite <- Q. clear Q y ys J.
    assert (K : mapM clean_join (jfs1 ++ x :: jfs2) = Err e); [|now rewrite K].
    clear - O X. induction jfs1 as [|y jfs1 IH]; cbn [List.app mapM]; [now rewrite X|]. destruct (proj2 (clean_join_ok y) (O y (or_introl eq_refl))) as (z & ->). cbn [bind]. rewrite IH; [reflexivity|intros u I; apply O; now right]. }
  destruct pre as [|q0 pre]; [congruence|]. cbn [List.app validate].
  destruct (proj2 (proj1 (validate_one_ok true 0 q0 ltac:(tauto))) (V 0 q0 eq_refl)) as (z & ->). cbn [bind].
  assert (K : mapM (validate_one false) (pre ++ JDict d :: post) = Err e); [|now rewrite K].
  assert (G : forall q, In q pre -> exists z', validate_one false q = Ok z').
  { intros q I. apply In_nth_error in I. destruct I as [i N]. apply (proj2 (proj1 (validate_one_ok false (S i) q ltac:(split; discriminate)))). apply V. exact N. }
  clear - G L. induction pre as [|y pre IH]; cbn [List.app mapM]; [now rewrite L|]. destruct (G y (or_introl eq_refl)) as (z & ->). cbn [bind]. rewrite IH; [reflexivity|intros u I; apply G; now right].
Qed.
(** Join fields that are not dicts raise AttributeError or TypeError instead. *)
Theorem C33_validate_error_refuted : exists l, validate l = Err AttributeError.
Proof.
  exists [JDict [("metrics", JList []); ("dimensions", JList [])];
          JDict [("metrics", JList []); ("dimensions", JList []); ("join_fields", JList [JStr "field"])]].
  reflexivity.
Qed.
Definition entry (js : list (string * string)) : jv :=
  JDict [("metrics", JList [JStr "Orders.revenue"]); ("dimensions", JList [JStr "orders.region"]); ("funnel", JDict []);
         ("join_fields", JList (map (fun p => JDict [("field", JStr (fst p)); ("source_field", JStr (snd p)); ("x", JOther true)]) js))].
Example validate_example : validate [entry []; entry [("Events.Region", "orders.REGION")]]
  = Ok [entry []; JDict [("metrics", JList [JStr "Orders.revenue"]); ("dimensions", JList [JStr "orders.region"]); ("funnel", JDict []);
                         ("join_fields", JList [JDict [("field", JStr "events.region"); ("source_field", JStr "orders.region")]])]].
Proof. reflexivity. Qed.

(** ** Columns *)
Lemma nodup_app {A} (l m : list A) : NoDup l -> NoDup m -> (forall x, In x l -> In x m -> False) -> NoDup (l ++ m).
Proof.
  induction 1 as [|x l N ND IH]; intros M D; simpl; [exact M|]. constructor.
  - intros I. apply in_app_or in I. destruct I as [I|I]; [contradiction|]. apply (D x); [left; reflexivity|exact I].
  - apply IH; [exact M|]. intros y I. apply D. right. exact I.
Qed.
Section Columns.
  Variable get_field : string -> res afield.
  Notation alias_of := (alias_of get_field).
  (** [q] asks for a column of name [a]; [q] joins on a column [a]. *)
  Definition asks (q : squery) (a : string) : Prop := exists n, In n (sq_metrics q ++ sq_dims q) /\ alias_of n = Ok a.
  Definition joins_on (q : squery) (a : string) : Prop := exists p, In p (sq_join q) /\ alias_of (fst p) = Ok a.

  Lemma select_fields_spec h fs : forall seen out seen' out',
    select_fields get_field h fs seen out = Ok (seen', out') ->
    (forall a, In a seen' <-> In a seen \/ exists n, In n fs /\ alias_of n = Ok a)
    /\ exists new, out' = out ++ new /\ NoDup (map snd new)
       /\ forall h' a, In (h', a) new <-> h' = h /\ ~ In a seen /\ exists n, In n fs /\ alias_of n = Ok a.
  Proof.
    induction fs as [|n fs IH]; intros seen out seen' out' H; cbn [select_fields] in H.
    - injection H as <- <-. split; [intros a; split; [auto|intros [I|(n & [] & _)]; exact I]|].
      exists []. rewrite app_nil_r. split; [reflexivity|]. split; [constructor|].
      intros h' a. split; [intros []|intros (_ & _ & n & [] & _)].
    - apply bind_ok in H. destruct H as (a0 & A & H). destruct (mem a0 seen) eqn:M.
      + apply mem_In in M. destruct (IH _ _ _ _ H) as (S & new & O & N & C). split.
        * intros a. rewrite S. split.
          -- intros [I|(m & I & E)]; [auto|right; exists m; split; [right; exact I|exact E]].
          -- intros [I|(m & [->|I] & E)]; [auto| |right; exists m; auto]. left. congruence.
        * exists new. split; [exact O|]. split; [exact N|]. intros h' a. rewrite C. split.
          -- intros (-> & NS & m & I & E). split; [reflexivity|]. split; [exact NS|]. exists m. split; [right; exact I|exact E].
          -- intros (-> & NS & m & [->|I] & E); split; auto; split; auto; [|exists m; auto]. exfalso. apply NS. congruence.
      + apply mem_false in M. destruct (IH _ _ _ _ H) as (S & new & O & N & C). split.
        * intros a. rewrite S, in_app_iff. split.
          -- intros [[I|[<-|[]]]|(m & I & E)]; [auto|right; exists n; split; [left; reflexivity|exact A]|].
             right. exists m. split; [right; exact I|exact E].
          -- intros [I|(m & [->|I] & E)]; [auto| |right; exists m; auto]. left. right. left. congruence.
        * exists ((h, a0) :: new). split; [rewrite O, <- app_assoc; reflexivity|]. split.
          -- simpl. constructor; [|exact N]. intros I. apply in_map_iff in I. destruct I as ([h' a] & E & I). simpl in E. subst a.
             apply C in I. destruct I as (_ & NS & _). apply NS. apply in_or_app. right; left; reflexivity.
          -- intros h' a. simpl. rewrite C, in_app_iff. split.
             ++ intros [E|(-> & NS & m & I & E)].
                ** injection E as <- <-. split; [reflexivity|]. split; [exact M|]. exists n. auto.
                ** split; [reflexivity|]. split; [tauto|]. exists m. auto.
             ++ intros (-> & NS & m & [->|I] & E).
                ** left. f_equal. congruence.
                ** destruct (string_dec a0 a) as [->|D]; [left; reflexivity|].
                   right. split; [reflexivity|]. split; [intros [I'|[I'|[]]]; auto|]. exists m. auto.
  Qed.

  Lemma select_loop_spec qs : forall seen out out',
    select_loop get_field qs seen out = Ok out' ->
    (forall h a, In (h, a) out -> In a seen) -> NoDup (map snd out) ->
    NoDup (map snd out')
    /\ forall h a, In (h, a) out' <-> In (h, a) out \/
         exists pre q post, qs = pre ++ q :: post /\ h = sq_cte q /\ asks q a /\ ~ In a seen
           /\ ~ joins_on q a /\ forall q', In q' pre -> ~ asks q' a /\ ~ joins_on q' a.
  Proof.
    induction qs as [|q qs IH]; intros seen out out' H SO N; cbn [select_loop] in H.
    - injection H as <-. split; [exact N|]. intros h a. split; [auto|]. intros [I|(pre & q & post & E & _)]; [exact I|].
      destruct pre; discriminate E.
    - apply bind_ok in H. destruct H as (js & J & H). apply bind_ok in H. destruct H as ([seen1 out1] & F & H). simpl in H.
      destruct (select_fields_spec _ _ _ _ _ _ F) as (S & new & O & NN & C).
      assert (JS : forall a, In a js <-> joins_on q a).
      { intros a. apply mapM_ok in J. unfold joins_on. clear - J. induction J as [|p y ps ys E J IH]; simpl.
        - split; [intros []|intros (p & [] & _)].
        - rewrite IH. split.
          + intros [<-|(p' & I & E')]; [exists p; auto|exists p'; auto].
          + intros (p' & [->|I] & E'); [left; congruence|right; exists p'; auto]. }
      assert (SO1 : forall h a, In (h, a) out1 -> In a seen1).
      { intros h a I. rewrite O in I. apply in_app_or in I. apply S. destruct I as [I|I].
        - left. apply in_or_app. left. eapply SO. exact I.
        - apply C in I. right. tauto. }
      assert (N1 : NoDup (map snd out1)).
      { rewrite O, map_app. apply nodup_app; [exact N|exact NN|]. intros a I1 I2.
        apply in_map_iff in I1. destruct I1 as ([h1 a1] & E1 & I1). simpl in E1. subst a1.
        apply in_map_iff in I2. destruct I2 as ([h2 a2] & E2 & I2). simpl in E2. subst a2.
        apply C in I2. destruct I2 as (_ & X & _). apply X. apply in_or_app. left. eapply SO. exact I1. }
      destruct (IH _ _ _ H SO1 N1) as (N2 & C2). split; [exact N2|].
      intros h a. rewrite C2, O, in_app_iff, C. split.
      + intros [[I|(-> & NS & n & I & E)]|(pre & q' & post & -> & -> & A & NS & NJ & P)].
        * left. exact I.
        * right. exists [], q, qs. split; [reflexivity|]. split; [reflexivity|].
          split; [exists n; auto|]. rewrite in_app_iff in NS. rewrite JS in NS.
          split; [tauto|]. split; [tauto|]. intros q' [].
        * right. exists (q :: pre), q', post. split; [reflexivity|]. split; [reflexivity|]. split; [exact A|].
          rewrite S, in_app_iff, JS in NS. split; [tauto|]. split; [exact NJ|].
          intros q0 [<-|I]; [|apply P; exact I]. split; [|tauto]. intros (n & I & E). apply NS. right. exists n. auto.
      + intros [I|(pre & q' & post & E & -> & A & NS & NJ & P)]; [auto|].
        destruct pre as [|q0 pre]; simpl in E; injection E as <- E.
        * left. right. split; [reflexivity|]. split; [rewrite in_app_iff, JS; tauto|].
          destruct A as (n & I & E'). exists n. auto.
        * right. subst qs. exists pre, q', post. split; [reflexivity|]. split; [reflexivity|]. split; [exact A|].
          destruct (P q (or_introl eq_refl)) as [P1 P2].
          split; [|split; [exact NJ|intros q1 I; apply P; right; exact I]].
          rewrite S, in_app_iff, JS. intros [[I|I]|(n & I & E)]; [tauto|tauto|]. apply P1. exists n. auto.
  Qed.

  (** The output has no two columns of the same name.  A column [a] is taken from the first query that asks for
      it, provided neither that query nor an earlier one joins on a column of that name. *)
  Theorem C33_columns qs out : select get_field qs = Ok out ->
    NoDup (map snd out)
    /\ forall h a, In (h, a) out <->
         exists pre q post, qs = pre ++ q :: post /\ h = sq_cte q /\ asks q a /\ ~ joins_on q a
           /\ forall q', In q' pre -> ~ asks q' a /\ ~ joins_on q' a.
  Proof.
    intros H. destruct (select_loop_spec qs [] [] out H) as [N C]; [intros h a []|constructor|].
    split; [exact N|]. intros h a. rewrite C. split.
    - intros [[]|(pre & q & post & E & Eh & A & _ & J & P)]. exists pre, q, post. auto.
    - intros (pre & q & post & E & Eh & A & J & P). right. exists pre, q, post. repeat (split; [assumption|]).
      split; [intros []|]. auto.
  Qed.
End Columns.

(** ** The whole query *)
Section Whole.
  Variable get_field : string -> res afield.

  (** [n] is a dimension of query [q], under its own name or by its id. *)
  Definition dimension_of (q : rquery) (n : string) : Prop :=
    In n (rq_dims q)
    \/ exists f d, get_field n = Ok f /\ In d (rq_dims q)
         /\ (assoc d (rq_ids q) = Some (af_id f) \/ assoc d (rq_ids q) = None /\ d = af_id f).
  Lemma resolve_side_dim q n m : resolve_side get_field q n = Ok m -> dimension_of q m.
  Proof.
    unfold resolve_side. destruct (assoc n (rq_map q)) as [fs|].
    - destruct (find (in_dims q) fs) as [f|] eqn:F; [|discriminate]. intros H. injection H as <-.
      apply find_some in F. left. apply mem_In. apply F.
    - destruct (get_field n) as [f|e] eqn:G; [|destruct e; discriminate].
      destruct (mem _ _) eqn:M; [|discriminate]. intros H. injection H as <-. apply mem_In, in_map_iff in M.
      destruct M as (d & E & I). right. exists f, d. split; [exact G|]. split; [exact I|].
      destruct (assoc d (rq_ids q)) as [i|]; [left; congruence|right; auto].
  Qed.

  (** A join field that is no dimension of its query is a JoinError, and so is one the user may not see *)
  Theorem C33_join_errors primary q e : (forall n x, get_field n = Err x -> x = AccessDenied) ->
    (resolve_joins get_field primary q = Err e -> e = JoinError) /\
    ((exists p, In p (rq_join q) /\ (assoc (fst p) (rq_map q) = None /\ ~ dimension_of q (fst p) \/ assoc (snd p) (rq_map primary) = None /\ ~ dimension_of primary (snd p))) ->
     resolve_joins get_field primary q = Err JoinError).
  Proof.
    intros G.
    assert (S : forall r n x, resolve_side get_field r n = Err x -> x = JoinError).
    { intros r n x. unfold resolve_side. destruct (assoc n (rq_map r)); [destruct (find _ _); congruence|]. destruct (get_field n) as [f|y] eqn:Q; [destruct (mem _ _); congruence|]. rewrite (G n y Q). congruence. }
    assert (K : forall x, resolve_joins get_field primary q = Err x -> x = JoinError).
    { intros x H. apply mapM_err in H. destruct H as (p & _ & H). apply bind_err in H. destruct H as [H|(f & _ & H)]; [eauto|]. apply bind_err in H. destruct H as [H|(s & _ & H)]; [eauto|discriminate]. }
    split; [apply K|]. intros (p & I & N). destruct (resolve_joins get_field primary q) as [l|x] eqn:R; [|f_equal; auto].
    exfalso. unfold resolve_joins in R. apply mapM_ok in R. destruct (Forall2_In_l _ _ _ R p I) as (y & _ & Y). apply bind_ok in Y. destruct Y as (f & E1 & Y). apply bind_ok in Y. destruct Y as (s & E2 & _).
    assert (Same : forall r n m, assoc n (rq_map r) = None -> resolve_side get_field r n = Ok m -> m = n).
    { intros r n m A. unfold resolve_side. rewrite A. destruct (get_field n) as [g|z]; [destruct (mem _ _); congruence|destruct z; discriminate]. }
    destruct N as [[A N]|[A N]]; [apply N; rewrite <- (Same _ _ _ A E1); eapply resolve_side_dim; exact E1|apply N; rewrite <- (Same _ _ _ A E2); eapply resolve_side_dim; exact E2].
  Qed.

  Lemma sub_queries_nth primary qs : forall i sqs, sub_queries get_field primary i qs = Ok sqs ->
    List.length sqs = List.length qs
    /\ forall k s, nth_error sqs k = Some s -> exists q, nth_error qs k = Some q
         /\ sq_cte s = cte (i + k) /\ sq_metrics s = rq_metrics q /\ sq_dims s = rq_dims q /\ sq_type s = rq_type q
         /\ (i + k > 0 -> List.length (sq_join s) = List.length (rq_join q)
                          /\ forall p, In p (sq_join s) -> dimension_of q (fst p) /\ dimension_of primary (snd p)).
  Proof.
    induction qs as [|q qs IH]; intros i sqs H; cbn [sub_queries] in H.
    - injection H as <-. split; [reflexivity|]. intros [|k] s E; discriminate.
    - apply bind_ok in H. destruct H as (js & J & H). apply bind_ok in H. destruct H as (l & L & H). injection H as <-.
      destruct (IH _ _ L) as [Len N]. split; [simpl; congruence|]. intros [|k] s E; simpl in E.
      + injection E as <-. exists q. simpl. rewrite Nat.add_0_r. repeat (split; [reflexivity|]). intros G.
        destruct (Nat.eqb i 0) eqn:Q; [apply Nat.eqb_eq in Q; lia|]. unfold resolve_joins in J. apply mapM_ok in J. split.
        * clear - J. induction J; simpl; congruence.
        * clear - J. induction J as [|p y ps ys E J IH]; intros z I; [destruct I|]. destruct I as [<-|I]; [|auto].
          apply bind_ok in E. destruct E as (f & E1 & E). apply bind_ok in E. destruct E as (s & E2 & E). injection E as <-.
          simpl. split; eapply resolve_side_dim; eassumption.
      + destruct (N k s E) as (q' & A & B). exists q'. replace (i + S k) with (S i + k) by lia. auto.
  Qed.

  Lemma get_query_inv qt qs w h o A : get_query get_field qt qs w h o = Ok A ->
    exists primary rest ml sqs wn hn on,
      qs = primary :: rest /\ add_mappings (primary :: qs) [] = Ok ml
      /\ sub_queries get_field primary 0 qs = Ok sqs
      /\ named w = Ok wn /\ named h = Ok hn /\ named o = Ok on
      /\ mapM (join_query get_field qt) (tl sqs) = Ok (aq_joins A) /\ select get_field sqs = Ok (aq_select A)
      /\ mapM (fun n => column get_field (lookup_of (aq_select A)) (clean_name ml n)) wn = Ok (aq_where A)
      /\ mapM (fun n => column get_field (lookup_of (aq_select A)) (clean_name ml n)) hn = Ok (aq_having A)
      /\ mapM (fun n => column get_field (lookup_of (aq_select A)) (clean_name ml n)) on = Ok (aq_order A)
      /\ aq_from A = cte 0.
  Proof.
    unfold get_query. destruct qs as [|primary rest]; [discriminate|]. intros H.
    apply bind_ok in H. destruct H as (ml & E1 & H). apply bind_ok in H. destruct H as (sqs & E2 & H).
    apply bind_ok in H. destruct H as (wn & E3 & H). apply bind_ok in H. destruct H as (hn & E4 & H).
    apply bind_ok in H. destruct H as (on & E5 & H). apply bind_ok in H. destruct H as (js & E6 & H).
    apply bind_ok in H. destruct H as (out & E7 & H). apply bind_ok in H. destruct H as (w' & E8 & H).
    apply bind_ok in H. destruct H as (h' & E9 & H). apply bind_ok in H. destruct H as (o' & E10 & H).
    injection H as <-. exists primary, rest, ml, sqs, wn, hn, on. simpl. repeat (split; [assumption || reflexivity|]). reflexivity.
  Qed.

  (** An empty list of queries passes validation and then raises IndexError *)
  Theorem C33_empty_refuted qt w h o : validate [] = Ok [] /\ get_query get_field qt [] w h o = Err IndexError.
  Proof. split; reflexivity. Qed.
  (** A group of conditions, which has no field of its own, is a KeyError *)
  Theorem C33_group_refuted qt primary rest w h o ml sqs : add_mappings (primary :: primary :: rest) [] = Ok ml -> sub_queries get_field primary 0 (primary :: rest) = Ok sqs ->
    In None w -> get_query get_field qt (primary :: rest) w h o = Err KeyError.
  Proof.
    intros M S I. unfold get_query. rewrite M. cbn [bind]. rewrite S. cbn [bind].
    assert (N : named w = Err KeyError); [|now rewrite N].
    induction w as [|[n|] w IH]; [destruct I| |reflexivity]. destruct I as [I|I]; [discriminate|]. specialize (IH I). unfold named in *. cbn [mapM bind]. now rewrite IH.
  Qed.
  (** Every condition and ordering is on an output column, in the sub query that provides that column. *)
  Theorem C33_only_output_columns qt qs w h o A : get_query get_field qt qs w h o = Ok A ->
    List.length (aq_where A) = List.length w /\ List.length (aq_having A) = List.length h
    /\ List.length (aq_order A) = List.length o
    /\ forall c, In c (aq_where A ++ aq_having A ++ aq_order A) -> In c (aq_select A).
  Proof.
    intros H. destruct (get_query_inv _ _ _ _ _ _ H) as (p & r & ml & sqs & wn & hn & on & _ & _ & _ & N1 & N2 & N3 & _ & _ & W1 & W2 & W3 & _).
    assert (L : forall (l : list (option string)) ln cs,
       named l = Ok ln -> mapM (fun n => column get_field (lookup_of (aq_select A)) (clean_name ml n)) ln = Ok cs ->
       List.length cs = List.length l /\ forall c, In c cs -> In c (aq_select A)).
    { intros l ln cs E1 E2. apply mapM_ok in E1, E2. split.
      - transitivity (List.length ln); [clear - E2; induction E2; simpl; congruence|clear - E1; induction E1; simpl; congruence].
      - clear - E2. induction E2 as [|n c ns cs E E2 IH]; intros c' I; [destruct I|]. destruct I as [<-|I]; [|auto].
        unfold column in E. apply bind_ok in E. destruct E as (a & _ & E).
        destruct (assoc a (lookup_of (aq_select A))) as [h0|] eqn:As; [|discriminate]. injection E as <-.
        apply assoc_In in As. unfold lookup_of in As. apply in_map_iff in As. destruct As as ([x y] & Q & I). injection Q as -> ->.
        exact I. }
    destruct (L w wn _ N1 W1) as [A1 B1]. destruct (L h hn _ N2 W2) as [A2 B2]. destruct (L o on _ N3 W3) as [A3 B3].
    split; [exact A1|]. split; [exact A2|]. split; [exact A3|].
    intros c I. apply in_app_or in I. destruct I as [I|I]; [auto|]. apply in_app_or in I. destruct I as [I|I]; auto.
  Qed.

  (** Query number k is joined to the first one on its own join fields, each a dimension of that query, compared
      with a dimension of the first query. *)
  Theorem C33_joins qt primary rest w h o A : get_query get_field qt (primary :: rest) w h o = Ok A ->
    List.length (aq_joins A) = List.length rest
    /\ forall k j, nth_error (aq_joins A) k = Some j -> exists q, nth_error rest k = Some q
         /\ aj_cte j = cte (S k)
         /\ (rq_join q <> [] -> aj_type j = join_type (rq_type q))
         /\ List.length (aj_on j) = List.length (rq_join q)
         /\ forall e, In e (aj_on j) -> exists n m f g, dimension_of q n /\ dimension_of primary m
              /\ get_field n = Ok f /\ get_field m = Ok g /\ ae_joined e = af_alias f /\ ae_base e = af_alias g
              /\ (ae_cast e = true <-> qt = "BIGQUERY" /\ af_datatype g <> af_datatype f).
  Proof.
    intros H. destruct (get_query_inv _ _ _ _ _ _ H) as (p & r & ml & sqs & wn & hn & on & Q & _ & SQS & _ & _ & _ & J & _).
    injection Q as <- <-. destruct (sub_queries_nth _ _ _ _ SQS) as [Len N].
    destruct sqs as [|s0 sqs]; [discriminate Len|]. simpl in Len. injection Len as Len. simpl tl in J.
    apply mapM_ok in J. destruct (forall2_nth _ _ _ J) as [LJ NJ]. split; [congruence|].
    intros k j E.
    assert (exists s, nth_error sqs k = Some s /\ join_query get_field qt s = Ok j) as (s & Es & Js).
    { destruct (nth_error sqs k) as [s|] eqn:Es.
      - exists s. split; [reflexivity|]. destruct (NJ k s Es) as (y & Y1 & Y2). congruence.
      - apply nth_error_None in Es. assert (nth_error (aq_joins A) k = None) by (apply nth_error_None; lia). congruence. }
    destruct (N (S k) s Es) as (q & Eq & C & _ & _ & T & X). destruct (X ltac:(lia)) as [XL XD]. exists q.
    split; [exact Eq|]. unfold join_query in Js. destruct (sq_join s) as [|p0 ps] eqn:SJ.
    - assert (rq_join q = []) as RJ by (destruct (rq_join q); [reflexivity|discriminate XL]).
      destruct (String.eqb qt "REDSHIFT"); injection Js as <-; simpl; rewrite RJ;
        (split; [exact C|]); (split; [congruence|]); (split; [reflexivity|]); intros e [].
    - apply bind_ok in Js. destruct Js as (on' & Jc & Js). injection Js as <-. simpl. split; [exact C|].
      split; [rewrite T; reflexivity|]. unfold criteria in Jc. apply mapM_ok in Jc. split.
      { rewrite <- XL. clear - Jc. induction Jc; simpl; [reflexivity|congruence]. }
      intros e I.
      assert (exists p', In p' (p0 :: ps) /\ (f <- get_field (fst p') ;; b <- get_field (snd p') ;;
                   Ok (AE (af_alias b) (af_alias f)
                          (String.eqb qt "BIGQUERY" && negb (String.eqb (af_datatype b) (af_datatype f))))) = Ok e) as (p' & Ip & Ep).
      { clear - Jc I. induction Jc as [|a b l l' E Jc IH]; [destruct I|]. destruct I as [<-|I]; [exists a; split; [left; reflexivity|exact E]|].
        destruct (IH I) as (p' & A & B). exists p'. split; [right; exact A|exact B]. }
      apply bind_ok in Ep. destruct Ep as (f & F1 & Ep). apply bind_ok in Ep. destruct Ep as (g & F2 & Ep). injection Ep as <-.
      destruct (XD p' Ip) as [D1 D2]. exists (fst p'), (snd p'), f, g. simpl. repeat (split; [assumption || reflexivity|]).
      rewrite andb_true_iff, negb_true_iff, String.eqb_eq, String.eqb_neq. tauto.
  Qed.
  (** The join type is the one named in the query, LEFT when none is. *)
  Theorem C33_join_types qt primary rest w h o A k j q : get_query get_field qt (primary :: rest) w h o = Ok A ->
    nth_error (aq_joins A) k = Some j -> nth_error rest k = Some q -> rq_join q <> [] ->
    (rq_type q = None -> aj_type j = JLeft) /\ (rq_type q = Some "left_outer" -> aj_type j = JLeft) /\ (rq_type q = Some "inner" -> aj_type j = JInner)
    /\ (rq_type q = Some "full_outer" -> aj_type j = JOuter) /\ (rq_type q = Some "cross" -> aj_type j = JCross).
  Proof.
    intros H J R N. destruct (C33_joins _ _ _ _ _ _ _ H) as [_ X]. destruct (X k j J) as (q' & R' & _ & T & _). rewrite R in R'. injection R' as <-.
    rewrite (T N). repeat split; intros ->; reflexivity.
  Qed.
  (** A condition or ordering by a mapped name, in any case of letters, is on the field the name stands for; any
      other is on its own field. *)
  Theorem C33_condition_columns qt primary rest w h o A : get_query get_field qt (primary :: rest) w h o = Ok A ->
    exists ml, add_mappings (primary :: primary :: rest) [] = Ok ml /\
    forall l cs, (l = w /\ cs = aq_where A) \/ (l = h /\ cs = aq_having A) \/ (l = o /\ cs = aq_order A) ->
    forall k n c, nth_error l k = Some (Some n) -> nth_error cs k = Some c ->
      exists f, (assoc (lower n) ml = Some f \/ assoc (lower n) ml = None /\ f = n) /\ alias_of get_field f = Ok (snd c).
  Proof.
    intros H. destruct (get_query_inv _ _ _ _ _ _ H) as (p & r & ml & sqs & wn & hn & on & Q & M & _ & N1 & N2 & N3 & _ & _ & W1 & W2 & W3 & _).
    injection Q as <- <-. exists ml. split; [exact M|].
    assert (L : forall (l : list (option string)) ln cs, named l = Ok ln -> mapM (fun n => column get_field (lookup_of (aq_select A)) (clean_name ml n)) ln = Ok cs ->
      forall k n c, nth_error l k = Some (Some n) -> nth_error cs k = Some c -> exists f, (assoc (lower n) ml = Some f \/ assoc (lower n) ml = None /\ f = n) /\ alias_of get_field f = Ok (snd c)).
    { intros l ln cs E1 E2 k n c K1 K2. apply mapM_ok in E1, E2. destruct (forall2_nth _ _ _ E1) as [_ X1]. destruct (X1 k _ K1) as (n' & K3 & E). injection E as <-.
      destruct (forall2_nth _ _ _ E2) as [_ X2]. destruct (X2 k _ K3) as (c' & K4 & E). rewrite K2 in K4. injection K4 as <-.
      unfold column in E. apply bind_ok in E. destruct E as (a & Al & E). destruct (assoc a _); [|discriminate]. injection E as <-. cbn [snd].
      unfold clean_name in Al. destruct (assoc (lower n) ml) as [f|] eqn:As; [exists f; auto|exists n; auto]. }
    intros l cs [[-> ->]|[[-> ->]|[-> ->]]]; eapply L; eassumption.
  Qed.
End Whole.
Print Assumptions C33_join_types.
Print Assumptions C33_condition_columns.

(** ** Rows *)
Section Rows.
  Variable tab : string -> list row.

  Lemma sql_eq_some a b : sql_eq a b = true -> a = b.
  Proof. destruct a, b; simpl; try discriminate. intros H. apply Z.eqb_eq in H. congruence. Qed.
  Lemma filter_le1 {A B} (key : A -> B) (p : A -> bool) l : NoDup (map key l) ->
    (forall x y, In x l -> In y l -> p x = true -> p y = true -> key x = key y) -> List.length (filter p l) <= 1.
  Proof.
    intros N C. destruct (filter p l) as [|x [|y r]] eqn:F; simpl; try lia. exfalso.
    assert (Ix : In x (filter p l)) by (rewrite F; left; reflexivity).
    assert (Iy : In y (filter p l)) by (rewrite F; right; left; reflexivity).
    apply filter_In in Ix, Iy.
    assert (K : key x = key y) by (apply C; tauto).
    clear - N F K. revert x y r F K. induction l as [|z l IH]; intros x y r F K; [discriminate|]. simpl in N, F.
    inversion N as [|? ? N1 N2]; subst. destruct (p z).
    - injection F as -> F. apply N1. rewrite K. apply in_map.
      assert (I : In y (filter p l)) by (rewrite F; left; reflexivity). apply filter_In in I. tauto.
    - eapply IH; eauto.
  Qed.

  Lemma col_val_base b r0 l (c : string) : col_val ((b, r0) :: l) b c = r0 c.
  Proof. unfold col_val. simpl. rewrite String.eqb_refl. reflexivity. Qed.

  Lemma left_step b q (done : list ajoin) (L : list row) : aj_type q = JLeft -> unique_on tab q ->
    join_rows tab b (map (merged_row tab b done) L) q = map (merged_row tab b (done ++ [q])) L.
  Proof.
    intros T U. unfold join_rows. rewrite T.
    assert (S : forall r0, (match matches tab b q (merged_row tab b done r0) with
                            | [] => [merged_row tab b done r0]
                            | ms => map (add q (merged_row tab b done r0)) ms end) = [merged_row tab b (done ++ [q]) r0]).
    { intros r0. unfold matches.
      assert (EQ : forall r, on_row b (aj_on q) (merged_row tab b done r0) r
                   = forallb (fun e => sql_eq (r0 (ae_base e)) (r (ae_joined e))) (aj_on q)).
      { intros r. unfold on_row, merged_row. induction (aj_on q) as [|e on IH]; simpl; [reflexivity|].
        rewrite IH, col_val_base. reflexivity. }
      rewrite (filter_ext _ _ EQ). unfold merged_row at 3. rewrite flat_map_app. simpl. rewrite app_nil_r.
      unfold partner at 2.
      assert (LE : List.length (filter (fun r => forallb (fun e => sql_eq (r0 (ae_base e)) (r (ae_joined e))) (aj_on q)) (tab (aj_cte q))) <= 1).
      { apply (filter_le1 (fun r => map (fun e => r (ae_joined e)) (aj_on q))); [exact U|].
        intros x y _ _ Hx Hy. rewrite forallb_forall in Hx, Hy. apply map_ext_in. intros e I.
        rewrite <- (sql_eq_some _ _ (Hx e I)). rewrite <- (sql_eq_some _ _ (Hy e I)). reflexivity. }
      destruct (filter _ (tab (aj_cte q))) as [|x [|y l]]; simpl in *; [rewrite app_nil_r; reflexivity| |lia].
      reflexivity. }
    induction L as [|r0 L IH]; simpl; [reflexivity|]. rewrite S. simpl. f_equal. exact IH.
  Qed.

  (** With left joins, and sub queries that have one row per combination of their join columns, the result is
      one row per row of the first query, with the values of the matching row of every other query. *)
  Theorem C33_rows b js : (forall q, In q js -> aj_type q = JLeft /\ unique_on tab q) ->
    result tab b js = map (merged_row tab b js) (tab b).
  Proof.
    intros H. unfold result.
    assert (G : forall done, fold_left (join_rows tab b) js (map (merged_row tab b done) (tab b)) = map (merged_row tab b (done ++ js)) (tab b)).
    { induction js as [|q js IH]; intros done; simpl; [rewrite app_nil_r; reflexivity|].
      destruct (H q (or_introl eq_refl)) as [T U]. rewrite (left_step b q done (tab b) T U), IH, <- app_assoc; [reflexivity|].
      intros q' I. apply H. right. exact I. }
    apply (G []).
  Qed.
End Rows.

(** ** Mapped names *)
(** A mapped name that is used stands for one of its fields that is a dimension, a condition or an ordering of
    the first query that has it. *)
Definition in_use (q : rquery) (f : string) : Prop := In f (rq_dims q) \/ In f (rq_where q) \/ In f (rq_order q).
Lemma add_mapping_spec q ms : forall cur lk lk',
  add_mapping q ms cur lk = Ok lk' ->
  (forall n fs, In (n, fs) ms -> exists f, In f fs /\ in_use q f) ->
  (forall n f, assoc n lk = Some f -> assoc n lk' = Some f)
  /\ (forall n f, assoc n lk' = Some f -> assoc n lk = Some f \/ exists fs, In (n, fs) ms /\ In f fs /\ in_use q f)
  /\ forall n fs, In (n, fs) ms -> assoc n lk' <> None.
Proof.
  induction ms as [|[n fs] ms IH]; intros cur lk lk' H U; cbn [add_mapping] in H.
  - injection H as <-. split; [auto|]. split; [auto|intros n fs []].
  - assert (U' : forall m gs, In (m, gs) ms -> exists f, In f gs /\ in_use q f) by (intros m gs I; apply (U m gs); right; exact I).
    destruct (assoc n lk) as [f0|] eqn:A.
    + destruct (IH _ _ _ H U') as (P1 & P2 & P3). split; [exact P1|]. split.
      * intros m f E. destruct (P2 m f E) as [X|(gs & X & Y)]; [auto|right; exists gs; split; [right; exact X|exact Y]].
      * intros m gs [E|I]; [injection E as <- <-; rewrite (P1 n f0 A); discriminate|eapply P3; eauto].
    + match type of H with match ?c with _ => _ end = _ => destruct c as [f|] eqn:C; [|discriminate] end.
      assert (F : In f fs /\ in_use q f).
      { destruct (find (in_dims q) fs) as [f1|] eqn:F1.
        { injection C as <-. apply find_some in F1. destruct F1 as [I D]. apply mem_In in D. split; [exact I|left; exact D]. }
        destruct (find (fun f => mem f (rq_where q)) fs) as [f1|] eqn:F2.
        { injection C as <-. apply find_some in F2. destruct F2 as [I D]. apply mem_In in D. split; [exact I|right; left; exact D]. }
        destruct (find (fun f => mem f (rq_order q)) fs) as [f1|] eqn:F3.
        { injection C as <-. apply find_some in F3. destruct F3 as [I D]. apply mem_In in D. split; [exact I|right; right; exact D]. }
        exfalso. destruct (U n fs (or_introl eq_refl)) as (g & Ig & [D|[D|D]]); apply mem_In in D.
        - pose proof (find_none _ _ F1 g Ig) as X. unfold in_dims in X. congruence.
        - pose proof (find_none _ _ F2 g Ig) as X. simpl in X. congruence.
        - pose proof (find_none _ _ F3 g Ig) as X. simpl in X. congruence. }
      assert (LK : forall m, assoc m (lk ++ [(n, f)]) = match assoc m lk with Some x => Some x | None => if String.eqb m n then Some f else None end).
      { intros m. clear. induction lk as [|[k v] lk IH]; simpl; [reflexivity|]. destruct (String.eqb m k); auto. }
      destruct (IH _ _ _ H U') as (P1 & P2 & P3). split; [|split].
      * intros m g E. apply P1. rewrite LK, E. reflexivity.
      * intros m g E. destruct (P2 m g E) as [X|(gs & X & Y)]; [|right; exists gs; split; [right; exact X|exact Y]].
        rewrite LK in X. destruct (assoc m lk) as [z|]; [left; exact X|]. destruct (String.eqb m n) eqn:Q; [|discriminate].
        apply String.eqb_eq in Q. subst m. injection X as <-. right. exists fs. split; [left; reflexivity|exact F].
      * intros m gs [E|I]; [|eapply P3; eauto]. injection E as <- <-.
        rewrite (P1 n f); [discriminate|]. rewrite LK, A, String.eqb_refl. reflexivity.
Qed.
Theorem C33_mapped_names qs : forall lk,
  add_mappings qs [] = Ok lk ->
  (forall q n fs, In q qs -> In (n, fs) (rq_map q) -> exists f, In f fs /\ in_use q f) ->
  (forall n f, assoc n lk = Some f -> exists q fs, In q qs /\ In (n, fs) (rq_map q) /\ In f fs /\ in_use q f)
  /\ forall q n fs, In q qs -> In (n, fs) (rq_map q) -> assoc n lk <> None.
Proof.
  assert (G : forall qs lk0 lk, add_mappings qs lk0 = Ok lk ->
    (forall q n fs, In q qs -> In (n, fs) (rq_map q) -> exists f, In f fs /\ in_use q f) ->
    (forall n f, assoc n lk0 = Some f -> assoc n lk = Some f)
    /\ (forall n f, assoc n lk = Some f -> assoc n lk0 = Some f \/ exists q fs, In q qs /\ In (n, fs) (rq_map q) /\ In f fs /\ in_use q f)
    /\ forall q n fs, In q qs -> In (n, fs) (rq_map q) -> assoc n lk <> None).
  { clear qs. induction qs as [|q qs IH]; intros lk0 lk H U; cbn [add_mappings] in H.
    - injection H as <-. split; [auto|]. split; [auto|intros q n fs []].
    - apply bind_ok in H. destruct H as (l1 & H1 & H2).
      destruct (add_mapping_spec _ _ _ _ _ H1 (fun n fs I => U q n fs (or_introl eq_refl) I)) as (P1 & P2 & P3).
      destruct (IH _ _ H2 (fun q' n fs I => U q' n fs (or_intror I))) as (Q1 & Q2 & Q3). split; [auto|]. split.
      + intros n f E. destruct (Q2 n f E) as [X|(q' & fs & I & R)]; [|right; exists q', fs; split; [right; exact I|exact R]].
        destruct (P2 n f X) as [Y|(fs & Y)]; [auto|]. right. exists q, fs. split; [left; reflexivity|exact Y].
      + intros q' n fs [<-|I] J; [|eapply Q3; eauto]. specialize (P3 n fs J).
        destruct (assoc n l1) as [f|] eqn:A; [|congruence]. rewrite (Q1 n f A). discriminate. }
  intros lk H U. destruct (G qs [] lk H U) as (_ & P2 & P3). split; [|exact P3].
  intros n f E. destruct (P2 n f E) as [X|X]; [discriminate|exact X].
Qed.

(** ** A concrete merge *)
Definition af (v n : string) : afield := AF (v ++ "." ++ n) (v ++ "_" ++ n) "string".
Definition gf (s : string) : res afield :=
  match split_char "."%char s with [v; n] => Ok (af v n) | _ => Err AccessDenied end.
Definition rq (ms ds : list string) (js : list (string * string)) : rquery :=
  RQ ms ds [] [] [] [] js None.
Definition q0 := rq ["orders.revenue"] ["orders.region"] [].
Definition q1 := rq ["events.cnt"] ["events.region"] [("events.region", "orders.region")].
Example merge_example :
  get_query gf "SNOWFLAKE" [q0; q1] [] [Some "events.cnt"] [Some "orders.region"] =
  Ok (AQ [("merged_query_0", "orders_revenue"); ("merged_query_0", "orders_region"); ("merged_query_1", "events_cnt")]
         "merged_query_0" [AJ "merged_query_1" JLeft [AE "orders_region" "events_region" false]]
         [] [("merged_query_1", "events_cnt")] [("merged_query_0", "orders_region")]).
Proof. reflexivity. Qed.
Example filter_not_output : get_query gf "SNOWFLAKE" [q0; q1] [Some "events.region"] [] [] = Err QueryError.
Proof. reflexivity. Qed.
Open Scope Z_scope.
Definition ex_tab (h : string) : list row :=
  if String.eqb h "merged_query_0"
  then [fun c => if String.eqb c "orders_region" then Some 1 else Some 10;
        fun c => if String.eqb c "orders_region" then Some 2 else Some 20]
  else [fun c => if String.eqb c "events_region" then Some 1 else Some 7].
Example rows_hypotheses : forall q, In q [AJ "merged_query_1" JLeft [AE "orders_region" "events_region" false]] ->
  aj_type q = JLeft /\ unique_on ex_tab q.
Proof. intros q [<-|[]]. split; [reflexivity|]. unfold unique_on. simpl. constructor; [intros []|constructor]. Qed.
Close Scope Z_scope.
Definition q_mapped := RQ ["orders.revenue"] ["orders.region"] [] [] [("region", ["events.region"; "orders.region"])] [] [] None.
Example mapped_hypotheses : (forall q n fs, In q [q_mapped; q_mapped] -> In (n, fs) (rq_map q) -> exists f, In f fs /\ in_use q f)
  /\ add_mappings [q_mapped; q_mapped] [] = Ok [("region", "orders.region")].
Proof.
  split; [|reflexivity]. intros q n fs I J. exists "orders.region".
  destruct I as [<-|[<-|[]]]; destruct J as [E|[]]; injection E as <- <-; (split; [right; left; reflexivity|left; left; reflexivity]).
Qed.

(** ** What is false *)
(** The same metric in two queries (say, this year and last year): only the first is in the result. *)
Theorem C33_same_metric_refuted : exists qs A,
  get_query gf "SNOWFLAKE" qs [] [] [] = Ok A
  /\ (forall q, In q qs -> In "orders.revenue" (rq_metrics q)) /\ List.length qs = 2
  /\ List.length (filter (fun c => String.eqb (snd c) "orders_revenue") (aq_select A)) = 1.
Proof.
  exists [q0; rq ["orders.revenue"] ["orders.region"] [("orders.region", "orders.region")]]. eexists.
  split; [vm_compute; reflexivity|]. split; [|split; reflexivity].
  intros q [<-|[<-|[]]]; left; reflexivity.
Qed.
(** A dimension that an earlier query joins on is not in the result at all. *)
Theorem C33_lost_column_refuted : exists qs q A,
  get_query gf "SNOWFLAKE" qs [] [] [] = Ok A /\ In q qs /\ In "events.region" (rq_dims q)
  /\ ~ In "events.region" (map fst (rq_join q)) /\ ~ In "events_region" (map snd (aq_select A)).
Proof.
  exists [q0; q1; rq ["calls.cnt"] ["calls.region"; "events.region"] [("calls.region", "orders.region")]].
  eexists. eexists. split; [vm_compute; reflexivity|]. split; [right; right; left; reflexivity|].
  split; [right; left; reflexivity|]. split.
  - intros [I|[]]; discriminate I.
  - simpl. intros I. repeat (destruct I as [I|I]; [discriminate I|]). exact I.
Qed.
(** A query with more dimensions than join fields repeats the rows (and metrics) of the first. *)
Theorem C33_fan_out_refuted : exists tab js r0,
  tab "merged_query_0" = [r0] /\ (forall q, In q js -> aj_type q = JLeft)
  /\ List.length (filter (fun j => match j with (h, r) :: _ => String.eqb h "merged_query_0" | _ => false end) (result tab "merged_query_0" js)) = 2.
Proof.
  exists (fun h => if String.eqb h "merged_query_0" then [fun _ => Some 1%Z]
                   else [fun c => if String.eqb c "d" then Some 1%Z else Some 2%Z; fun c => if String.eqb c "d" then Some 1%Z else Some 3%Z]).
  exists [AJ "merged_query_1" JLeft [AE "d" "d" false]], (fun _ => Some 1%Z). split; [reflexivity|]. split; [|reflexivity].
  intros q [<-|[]]. reflexivity.
Qed.
(** A mapped join field whose fields the first query does not use: UnboundLocalError instead of a JoinError. *)
Theorem C33_unbound_mapping_refuted : exists q q', get_query gf "SNOWFLAKE" [q; q'] [] [] [] = Err UnboundLocal.
Proof.
  exists (RQ ["orders.revenue"] ["orders.region"] [] [] [("date", ["orders.date"; "events.date"])] [] [] None),
         (rq ["events.cnt"] ["events.date"] [("events.date", "date")]). reflexivity.
Qed.
(** ... and after another mapped name it silently stands for that other name's field. *)
Theorem C33_stale_mapping_refuted : exists q, add_mappings [q] [] = Ok [("region", "orders.region"); ("date", "orders.region")]
  /\ rq_map q = [("region", ["orders.region"]); ("date", ["orders.date"; "events.date"])].
Proof.
  exists (RQ ["orders.revenue"] ["orders.region"] [] [] [("region", ["orders.region"]); ("date", ["orders.date"; "events.date"])] [] [] None).
  split; reflexivity.
Qed.

Print Assumptions C33_validate_iff.
Print Assumptions C33_validate_result.
Print Assumptions C33_validate_error.
Print Assumptions C33_validate_error_refuted.
Print Assumptions C33_columns.
Print Assumptions C33_only_output_columns.
Print Assumptions C33_joins.
Print Assumptions C33_rows.
Print Assumptions C33_mapped_names.
Print Assumptions C33_same_metric_refuted.
Print Assumptions C33_lost_column_refuted.
Print Assumptions C33_fan_out_refuted.
Print Assumptions C33_unbound_mapping_refuted.
Print Assumptions C33_stale_mapping_refuted.
Print Assumptions C33_other_join_fields.
Print Assumptions C33_join_errors.
Print Assumptions C33_empty_refuted.
Print Assumptions C33_group_refuted.
