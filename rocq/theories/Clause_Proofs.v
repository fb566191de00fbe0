(** Proofs about WHERE and HAVING clauses. *)
From Verif Require Import PyBase PyStr Core_Model Clause_Model Clause_Spec.
Local Open Scope string_scope.
Local Open Scope list_scope.

Lemma and3_assoc x y z : and3 x (and3 y z) = and3 (and3 x y) z.
Proof. destruct x as [[]|], y as [[]|], z as [[]|]; reflexivity. Qed.
Lemma or3_assoc x y z : or3 x (or3 y z) = or3 (or3 x y) z.
Proof. destruct x as [[]|], y as [[]|], z as [[]|]; reflexivity. Qed.
Lemma and3_true_l x : and3 (Some true) x = x. Proof. destruct x as [[]|]; reflexivity. Qed.
Lemma and3_true_r x : and3 x (Some true) = x. Proof. destruct x as [[]|]; reflexivity. Qed.
Lemma or3_false_l x : or3 (Some false) x = x. Proof. destruct x as [[]|]; reflexivity. Qed.
Lemma or3_false_r x : or3 x (Some false) = x. Proof. destruct x as [[]|]; reflexivity. Qed.
Lemma and3_is_true x y : and3 x y = Some true <-> x = Some true /\ y = Some true.
Proof. destruct x as [[]|], y as [[]|]; simpl; split; intros H; try discriminate H; try (destruct H; discriminate); try (destruct H; reflexivity); auto. Qed.
Lemma or3_is_true x y : or3 x y = Some true <-> x = Some true \/ y = Some true.
Proof. destruct x as [[]|], y as [[]|]; simpl; split; intros H; try discriminate H; try (destruct H; discriminate); auto; destruct H; discriminate. Qed.
Lemma all3_true l : all3 l = Some true <-> Forall (fun x => x = Some true) l.
Proof.
  induction l as [|x l IH]; simpl; [split; intros; [constructor | reflexivity]|].
  rewrite and3_is_true, IH. split; [intros [A B]; constructor; assumption | intros F; inversion F; auto].
Qed.
Lemma any3_true l : any3 l = Some true <-> Exists (fun x => x = Some true) l.
Proof.
  induction l as [|x l IH]; simpl; [split; intros H; [discriminate | inversion H]|].
  rewrite or3_is_true, IH. split; [intros [H|H]; [left | right]; assumption | intros F; inversion F; auto].
Qed.

(** ** SQL's reading is unambiguous *)
Scheme sql_or_ind' := Induction for sql_or Sort Prop
  with sql_and_ind' := Induction for sql_and Sort Prop
  with sql_prim_ind' := Induction for sql_prim Sort Prop.
Combined Scheme sql_mut from sql_or_ind', sql_and_ind', sql_prim_ind'.

Section Read.
  Context {A : Type}.
  Variable val : A -> tv.
  Fixpoint p_prim (n : nat) (ts : list (tok A)) : option (tv * list (tok A)) :=
    match n with
    | O => None
    | S n =>
        match ts with
        | TAtom a :: r => Some (val a, r)
        | TOpen :: r => match p_or n r with Some (x, TClose :: r') => Some (x, r') | _ => None end
        | _ => None
        end
    end
  with p_and (n : nat) (ts : list (tok A)) : option (tv * list (tok A)) :=
    match n with
    | O => None
    | S n =>
        match p_prim n ts with
        | Some (x, TAnd :: r) => match p_and n r with Some (y, r') => Some (and3 x y, r') | None => None end
        | o => o
        end
    end
  with p_or (n : nat) (ts : list (tok A)) : option (tv * list (tok A)) :=
    match n with
    | O => None
    | S n =>
        match p_and n ts with
        | Some (x, TOr :: r) => match p_or n r with Some (y, r') => Some (or3 x y, r') | None => None end
        | o => o
        end
    end.

  Definition no_and (r : list (tok A)) : Prop := match r with TAnd :: _ => False | _ => True end.
  Definition no_op (r : list (tok A)) : Prop := match r with TAnd :: _ | TOr :: _ => False | _ => True end.

  Lemma parser_complete :
    (forall ts x, sql_or val ts x -> forall rest, no_op rest -> exists n0, forall n, n0 <= n -> p_or n (ts ++ rest) = Some (x, rest)) /\
    (forall ts x, sql_and val ts x -> forall rest, no_and rest -> exists n0, forall n, n0 <= n -> p_and n (ts ++ rest) = Some (x, rest)) /\
    (forall ts x, sql_prim val ts x -> forall rest, exists n0, forall n, n0 <= n -> p_prim n (ts ++ rest) = Some (x, rest)).
  Proof.
    apply (sql_mut A val
      (fun ts x _ => forall rest, no_op rest -> exists n0, forall n, n0 <= n -> p_or n (ts ++ rest) = Some (x, rest))
      (fun ts x _ => forall rest, no_and rest -> exists n0, forall n, n0 <= n -> p_and n (ts ++ rest) = Some (x, rest))
      (fun ts x _ => forall rest, exists n0, forall n, n0 <= n -> p_prim n (ts ++ rest) = Some (x, rest))).
    - intros ts x _ IH rest NO. destruct (IH rest) as [n0 H]. { destruct rest as [|[]]; simpl in *; auto. }
      exists (S n0). intros [|n] Hn; [lia|]. cbn [p_or]. rewrite H by lia. destruct rest as [|[]]; simpl in *; try contradiction; reflexivity.
    - intros ts x ts' y _ IH1 _ IH2 rest NO. destruct (IH1 (TOr :: ts' ++ rest) I) as [n1 H1]. destruct (IH2 rest NO) as [n2 H2].
      exists (S (n1 + n2)). intros [|n] Hn; [lia|]. cbn [p_or]. rewrite <- app_assoc. cbn [app].
      rewrite H1 by lia. rewrite H2 by lia. reflexivity.
    - intros ts x _ IH rest NO. destruct (IH rest) as [n0 H].
      exists (S n0). intros [|n] Hn; [lia|]. cbn [p_and]. rewrite H by lia. destruct rest as [|[]]; simpl in *; try contradiction; reflexivity.
    - intros ts x ts' y _ IH1 _ IH2 rest NO. destruct (IH1 (TAnd :: ts' ++ rest)) as [n1 H1]. destruct (IH2 rest NO) as [n2 H2].
      exists (S (n1 + n2)). intros [|n] Hn; [lia|]. cbn [p_and]. rewrite <- app_assoc. cbn [app].
      rewrite H1 by lia. rewrite H2 by lia. reflexivity.
    - intros a rest. exists 1. intros [|n] Hn; [lia|]. reflexivity.
    - intros ts x _ IH rest. destruct (IH (TClose :: rest) I) as [n0 H].
      exists (S n0). intros [|n] Hn; [lia|]. cbn [p_prim app]. rewrite <- app_assoc. cbn [app]. rewrite H by lia. reflexivity.
  Qed.

  Lemma sql_or_unique ts x y : sql_or val ts x -> sql_or val ts y -> x = y.
  Proof.
    intros H1 H2. destruct parser_complete as [C _].
    destruct (C ts x H1 [] I) as [n1 E1]. destruct (C ts y H2 [] I) as [n2 E2].
    specialize (E1 (n1 + n2) ltac:(lia)). specialize (E2 (n1 + n2) ltac:(lia)). rewrite E1 in E2. injection E2 as E2. exact E2.
  Qed.

  Lemma and_app ts x ts' y : sql_and val ts x -> sql_and val ts' y -> sql_and val (ts ++ TAnd :: ts') (and3 x y).
  Proof.
    intros H H'. induction H as [ts x P | ts x ts2 z P Q IH].
    - apply and_more; assumption.
    - rewrite <- app_assoc. cbn [app]. rewrite <- and3_assoc. apply and_more; [exact P | exact IH].
  Qed.
  Lemma or_app ts x ts' y : sql_or val ts x -> sql_or val ts' y -> sql_or val (ts ++ TOr :: ts') (or3 x y).
  Proof.
    intros H H'. induction H as [ts x P | ts x ts2 z P Q IH].
    - apply or_more; assumption.
    - rewrite <- app_assoc. cbn [app]. rewrite <- or3_assoc. apply or_more; [exact P | exact IH].
  Qed.

  (** ** What pypika prints is read back as the criterion *)
  Variable lit_value : list (tok A) -> tv.
  Fixpoint cval (c : pcrit A) : tv :=
    match c with
    | PAtom a => val a
    | PLit ts => lit_value ts
    | PEmpty => None
    | PBin BAnd l r => and3 (cval l) (cval r)
    | PBin BOr l r => or3 (cval l) (cval r)
    end.
  (** Literals that contain no OR outside brackets *)
  Fixpoint printable (c : pcrit A) : Prop :=
    match c with
    | PAtom _ => True
    | PLit ts => sql_and val ts (lit_value ts)
    | PEmpty => False
    | PBin _ l r => printable l /\ printable r
    end.

  Lemma printed c : printable c -> forall sub, exists ts, get_sql sub c = Ok ts /\
    sql_or val ts (cval c) /\
    ((sub = true \/ match c with PBin BOr _ _ => False | _ => True end) -> sql_and val ts (cval c)).
  Proof.
    induction c as [a|ts|o l IHl r IHr|]; intros P sub.
    - exists [TAtom a]. split; [reflexivity|]. split; [apply or_one, and_one; constructor | intros _; apply and_one; constructor].
    - exists ts. split; [reflexivity|]. simpl in P. split; [apply or_one; exact P | intros _; exact P].
    - destruct P as [Pl Pr].
      destruct (IHl Pl (needs_brackets o l)) as [tl [El [Ol Al]]].
      destruct (IHr Pr (needs_brackets o r)) as [tr [Er [Or_ Ar]]].
      set (s := tl ++ op_tok o :: tr).
      assert (S : sql_or val s (cval (PBin o l r)) /\ (o = BAnd -> sql_and val s (cval (PBin o l r)))).
      { destruct o.
        - assert (H : sql_and val s (cval (PBin BAnd l r))).
          { apply and_app.
            + apply Al. destruct l as [| |[]|]; simpl; auto.
            + apply Ar. destruct r as [| |[]|]; simpl; auto. }
          split; [apply or_one; exact H | intros _; exact H].
        - split; [|discriminate]. apply or_app; assumption. }
      destruct S as [So Sa].
      exists (if sub then TOpen :: s ++ [TClose] else s). split.
      { cbn [get_sql]. rewrite El. cbn [bind]. rewrite Er. reflexivity. }
      destruct sub.
      + assert (H : sql_prim val (TOpen :: s ++ [TClose]) (cval (PBin o l r))) by (constructor; exact So).
        split; [apply or_one, and_one; exact H | intros _; apply and_one; exact H].
      + split; [exact So|]. intros [D|D]; [discriminate D|]. apply Sa. destruct o; [reflexivity | contradiction].
    - contradiction.
  Qed.

  Lemma criterion_fold o l : forall c, c <> PEmpty -> fold_left (pbin o) l c <> PEmpty /\
    (printable c -> Forall printable l -> printable (fold_left (pbin o) l c)) /\
    cval (fold_left (pbin o) l c) = match o with BAnd => and3 (cval c) (all3 (map cval l)) | BOr => or3 (cval c) (any3 (map cval l)) end.
  Proof.
    induction l as [|x l IH]; intros c NE.
    - simpl. split; [exact NE|]. split; [auto|]. destruct o; [rewrite and3_true_r | rewrite or3_false_r]; reflexivity.
    - assert (E : pbin o c x = PBin o c x) by (destruct c; [reflexivity | reflexivity | reflexivity | congruence]).
      cbn [fold_left]. rewrite E. destruct (IH (PBin o c x)) as [N [P V]]; [discriminate|].
      split; [exact N|]. split.
      + intros Pc F. inversion F; subst. apply P; [split; assumption | assumption].
      + rewrite V. destruct o; simpl; [rewrite and3_assoc | rewrite or3_assoc]; reflexivity.
  Qed.

  Lemma criterion_all_ok l : l <> [] -> Forall printable l ->
    criterion_all l <> PEmpty /\ printable (criterion_all l) /\ cval (criterion_all l) = all3 (map cval l).
  Proof.
    intros NE F. destruct l as [|x l]; [congruence|]. inversion F; subst.
    unfold criterion_all. cbn [fold_left pbin]. assert (Nx : x <> PEmpty) by (intros E; subst x; simpl in H1; exact H1).
    destruct (criterion_fold BAnd l x Nx) as [N [P V]]. split; [exact N|]. split; [apply P; assumption|]. rewrite V. reflexivity.
  Qed.
  Lemma criterion_any_ok l : l <> [] -> Forall printable l ->
    criterion_any l <> PEmpty /\ printable (criterion_any l) /\ cval (criterion_any l) = any3 (map cval l).
  Proof.
    intros NE F. destruct l as [|x l]; [congruence|]. inversion F; subst.
    unfold criterion_any. cbn [fold_left pbin]. assert (Nx : x <> PEmpty) by (intros E; subst x; simpl in H1; exact H1).
    destruct (criterion_fold BOr l x Nx) as [N [P V]]. split; [exact N|]. split; [apply P; assumption|]. rewrite V. reflexivity.
  Qed.
End Read.

(** ** Filter trees *)
Section Trees.
  Context {A L : Type}.
  Notation ftree := (ftree A L).
  Variable leaf_ok : L -> res unit.
  Variable comparisons : L -> res (list A).

  Fixpoint ftree_ind' (P : ftree -> Prop) (HL : forall l, P (FLeaf l)) (HT : forall ts, P (FLit ts))
      (HG : forall op conds, Forall P conds -> P (FGroup op conds)) (f : ftree) : P f :=
    match f with
    | FLeaf l => HL l
    | FLit ts => HT ts
    | FGroup op conds => HG op conds ((fix go (l : list ftree) : Forall P l :=
        match l with [] => Forall_nil _ | x :: r => Forall_cons _ (ftree_ind' P HL HT HG x) (go r) end) conds)
    end.

  Lemma validate_group op (conds : list ftree) : conds <> [] ->
    validate leaf_ok (FGroup op conds) =
    (_ <- mapM (validate leaf_ok) conds ;; match op with Some o => if mem o ["AND"; "OR"] then Ok tt else Err ParseError | None => Ok tt end).
  Proof.
    intros NE. destruct conds as [|c conds]; [congruence|]. clear NE. cbn [validate].
    set (go := fix go (l : list ftree) : res unit := match l with [] => Ok tt | x :: r => _ <- validate leaf_ok x ;; go r end).
    assert (H : forall l, go l = (_ <- mapM (validate leaf_ok) l ;; Ok tt)).
    { induction l as [|x l IH]; [reflexivity|]. cbn [go mapM]. fold go. destruct (validate leaf_ok x) as [u|e]; cbn [bind]; [|reflexivity].
      rewrite IH. destruct (mapM _ l); reflexivity. }
    rewrite H. cbn [mapM]. destruct (validate leaf_ok c) as [u|e]; cbn [bind]; [|reflexivity].
    destruct (mapM (validate leaf_ok) conds); reflexivity.
  Qed.
  Lemma group_sql_group op (conds : list ftree) :
    group_sql_query comparisons (FGroup op conds) =
    (cs <- mapM (group_sql_query comparisons) conds ;;
     match op with
     | Some o => if String.eqb o "OR" then Ok (criterion_any cs) else if String.eqb o "AND" then Ok (criterion_all cs) else Err ParseError
     | None => Ok (criterion_all cs)
     end).
  Proof.
    cbn [group_sql_query].
    set (go := fix go (l : list ftree) : res (list (pcrit A)) := match l with [] => Ok [] | x :: r => y <- group_sql_query comparisons x ;; ys <- go r ;; Ok (y :: ys) end).
    assert (H : forall l, go l = mapM (group_sql_query comparisons) l).
    { induction l as [|x l IH]; [reflexivity|]. cbn [go mapM]. fold go. rewrite IH. reflexivity. }
    rewrite H. reflexivity.
  Qed.

  Variable val : A -> tv.
  Variable leaf_value : L -> tv.
  Variable lit_value : list (tok A) -> tv.
  Hypothesis leaf_sound : forall l, leaf_ok l = Ok tt ->
    exists cs, comparisons l = Ok cs /\ cs <> [] /\ leaf_value l = all3 (map val cs).

  Lemma mapM_ok_each {X Y} (f : X -> res Y) l ys : mapM f l = Ok ys -> forall x, In x l -> exists y, f x = Ok y.
  Proof.
    revert ys. induction l as [|a l IH]; intros ys E x I; [destruct I|].
    cbn [mapM] in E. apply bind_ok in E. destruct E as [y [E1 E2]]. apply bind_ok in E2. destruct E2 as [ys' [E2 _]].
    destruct I as [->|I]; [exists y; exact E1 | eapply IH; eassumption].
  Qed.

  Lemma group_ok f : validate leaf_ok f = Ok tt -> ~ has_lit f ->
    exists c, group_sql_query comparisons f = Ok c /\ c <> PEmpty /\ printable val lit_value c /\ cval val lit_value c = meaning leaf_value lit_value f.
  Proof.
    induction f as [l|ts|op conds IH] using ftree_ind'; intros V NL.
    - destruct (leaf_sound l V) as [cs [E [NE LV]]].
      assert (F : Forall (printable val lit_value) (map PAtom cs)).
      { apply Forall_forall. intros c I. apply in_map_iff in I. destruct I as [a [<- _]]. exact I. }
      destruct (criterion_all_ok val lit_value (map PAtom cs)) as [N [P C]]; [destruct cs; [congruence | discriminate] | exact F |].
      exists (criterion_all (map PAtom cs)). split; [cbn [group_sql_query]; unfold criterion; rewrite E; reflexivity|].
      split; [exact N|]. split; [exact P|]. rewrite C, map_map. cbn [meaning]. rewrite LV. reflexivity.
    - exfalso. apply NL. constructor.
    - destruct conds as [|c0 conds0]; [discriminate V|]. remember (c0 :: conds0) as conds eqn:EC.
      assert (NC : conds <> []) by (subst; discriminate). clear EC.
      rewrite validate_group in V by exact NC. apply bind_ok in V. destruct V as [us [V1 V2]].
      assert (H : exists cs, mapM (group_sql_query comparisons) conds = Ok cs /\ Forall (printable val lit_value) cs /\
                   map (cval val lit_value) cs = map (meaning leaf_value lit_value) conds).
      { assert (G : forall x, In x conds -> validate leaf_ok x = Ok tt /\ ~ has_lit x).
        { intros x I. split; [destruct (mapM_ok_each _ _ _ V1 x I) as [[] E]; exact E | intros HL; apply NL; econstructor 2; eassumption]. }
        clear V1 V2 NC NL us. induction conds as [|x l IHl]; [exists []; repeat split; constructor|].
        inversion IH as [|? ? IHx IHrest]; subst.
        destruct (G x (or_introl eq_refl)) as [Vx Nx]. destruct (IHx Vx Nx) as [c [E [_ [P C]]]].
        destruct (IHl IHrest) as [cs [Es [Ps Cs]]]; [intros y I; apply G; right; exact I|].
        exists (c :: cs). split; [cbn [mapM]; rewrite E; cbn [bind]; rewrite Es; reflexivity|].
        split; [constructor; assumption|]. simpl. rewrite C, Cs. reflexivity. }
      destruct H as [cs [E [F M]]].
      assert (NCS : cs <> []).
      { intros ->. destruct conds; [congruence | discriminate M]. }
      rewrite group_sql_group, E. cbn [bind meaning].
      destruct op as [o|].
      + destruct (mem o ["AND"; "OR"]) eqn:MO; [|discriminate V2].
        apply mem_In in MO. destruct MO as [<-|[<-|[]]]; cbn.
        * destruct (criterion_all_ok val lit_value cs NCS F) as [N [P C]]. eexists; split; [reflexivity|]. split; [exact N|]. split; [exact P|]. rewrite C, M. reflexivity.
        * destruct (criterion_any_ok val lit_value cs NCS F) as [N [P C]]. eexists; split; [reflexivity|]. split; [exact N|]. split; [exact P|]. rewrite C, M. reflexivity.
      + destruct (criterion_all_ok val lit_value cs NCS F) as [N [P C]]. eexists; split; [reflexivity|]. split; [exact N|]. split; [exact P|]. rewrite C, M. reflexivity.
  Qed.

  (** A literal may stand at top level only *)
  Definition placed (f : ftree) : Prop := match f with FLit ts => sql_and val ts (lit_value ts) | _ => ~ has_lit f end.

  Lemma filter_ok f : validate leaf_ok f = Ok tt -> placed f ->
    exists c, filter_sql leaf_ok comparisons f = Ok c /\ c <> PEmpty /\ printable val lit_value c /\ cval val lit_value c = meaning leaf_value lit_value f.
  Proof.
    intros V PL. destruct f as [l|ts|op conds].
    - destruct (group_ok (FLeaf l) V PL) as [c [E R]]. exists c. split; [unfold filter_sql; rewrite V; exact E | exact R].
    - exists (PLit ts). split; [reflexivity|]. split; [discriminate|]. split; [exact PL | reflexivity].
    - destruct (group_ok (FGroup op conds) V PL) as [c [E R]]. exists c. split; [unfold filter_sql; rewrite V; exact E | exact R].
  Qed.

  Lemma clause_ok fs : fs <> [] -> Forall (fun f => validate leaf_ok f = Ok tt /\ placed f) fs ->
    exists ts, (cs <- mapM (filter_sql leaf_ok comparisons) fs ;;
                match criterion_all cs with PEmpty => Ok None | c => ts <- get_sql false c ;; Ok (Some ts) end) = Ok (Some ts) /\
      sql_or val ts (all3 (map (meaning leaf_value lit_value) fs)).
  Proof.
    intros NE F.
    assert (H : exists cs, mapM (filter_sql leaf_ok comparisons) fs = Ok cs /\ Forall (printable val lit_value) cs /\
                 map (cval val lit_value) cs = map (meaning leaf_value lit_value) fs).
    { clear NE. induction F as [|f fs [V P] F IH]; [exists []; repeat split; constructor|].
      destruct IH as [cs [E [Fc M]]]. destruct (filter_ok f V P) as [c [Ec [_ [Pc Cc]]]].
      exists (c :: cs). cbn [mapM]. rewrite Ec. cbn [bind]. rewrite E. split; [reflexivity|]. split; [constructor; assumption|]. simpl. rewrite Cc, M. reflexivity. }
    destruct H as [cs [E [Fc M]]].
    assert (NCS : cs <> []) by (intros ->; destruct fs; [congruence | discriminate M]).
    destruct (criterion_all_ok val lit_value cs NCS Fc) as [N [P C]].
    destruct (printed val lit_value _ P false) as [ts [Et [Ot _]]].
    exists ts. rewrite E. cbn [bind]. split.
    - destruct (criterion_all cs) eqn:EA; try congruence; rewrite Et; reflexivity.
    - rewrite C, M in Ot. exact Ot.
  Qed.
End Trees.

(** Refusals *)
Section Refuse.
  Context {A L : Type}.
  Variable leaf_ok : L -> res unit.
  Lemma mapM_err_in {X Y} (f : X -> res Y) l x e : In x l -> f x = Err e -> (forall y e', In y l -> f y = Err e' -> e' = e) -> mapM f l = Err e.
  Proof.
    intros I E U. induction l as [|a l IH]; [destruct I|]. cbn [mapM].
    destruct (f a) as [b|e'] eqn:Ea.
    - cbn [bind]. assert (I' : In x l) by (destruct I as [->|I]; [congruence | exact I]).
      rewrite (IH I') by (intros y e' J; apply U; right; exact J). reflexivity.
    - rewrite (U a e' (or_introl eq_refl) Ea). reflexivity.
  Qed.
  Lemma mapM_err_form {X Y} (f : X -> res Y) l e : mapM f l = Err e -> exists x, In x l /\ f x = Err e.
  Proof.
    induction l as [|a l IH]; cbn [mapM]; intros E; [discriminate E|].
    destruct (f a) as [b|e'] eqn:Ea; cbn [bind] in E.
    - destruct (mapM f l) as [ys|e'']; cbn [bind] in E; [discriminate E|]. injection E as ->.
      destruct (IH eq_refl) as [x [I H]]. exists x. split; [right; exact I | exact H].
    - injection E as ->. exists a. split; [left; reflexivity | exact Ea].
  Qed.
  (** With well formed conditions, validation raises nothing but ParseError *)
  Lemma validate_errors (f : ftree A L) : (forall l, leaf_of l f -> leaf_ok l = Ok tt) ->
    forall e, validate leaf_ok f = Err e -> e = ParseError /\ (bad_op f \/ has_empty f).
  Proof.
    induction f as [l|ts|op conds IH] using ftree_ind'; intros LO e E.
    - cbn [validate] in E. rewrite LO in E by constructor. discriminate E.
    - discriminate E.
    - destruct conds as [|c0 conds0]; [injection E as <-; split; [reflexivity | right; constructor]|].
      remember (c0 :: conds0) as conds eqn:EC. assert (NC : conds <> []) by (subst; discriminate). clear EC.
      rewrite validate_group in E by exact NC.
      destruct (mapM (validate leaf_ok) conds) as [us|e'] eqn:M; cbn [bind] in E.
      + destruct op as [o|]; [|discriminate E]. destruct (mem o ["AND"; "OR"]) eqn:MO; [discriminate E|].
        injection E as <-. split; [reflexivity|]. left. constructor. apply mem_false. exact MO.
      + injection E as <-. apply mapM_err_form in M. destruct M as [x [I V]].
        rewrite Forall_forall in IH. destruct (IH x I (fun l H => LO l (leaf_below l op conds x I H)) _ V) as [-> [B|B]];
          (split; [reflexivity|]); [left | right]; econstructor 2; eassumption.
  Qed.
  Lemma validate_bad (f : ftree A L) : bad_op f \/ has_empty f -> validate leaf_ok f <> Ok tt.
  Proof.
    intros B V. revert V. induction f as [l|ts|op conds IH] using ftree_ind'; intros V.
    - destruct B as [B|B]; inversion B.
    - destruct B as [B|B]; inversion B.
    - destruct conds as [|c0 conds0]; [discriminate V|].
      remember (c0 :: conds0) as conds eqn:EC. assert (NC : conds <> []) by (subst; discriminate).
      rewrite validate_group in V by exact NC. apply bind_ok in V. destruct V as [us [V1 V2]].
      assert (G : forall x, In x conds -> bad_op x \/ has_empty x -> False).
      { intros x I Bx. rewrite Forall_forall in IH. destruct (mapM_ok_each _ _ _ V1 x I) as [[] E]. exact (IH x I Bx E). }
      destruct B as [B|B]; inversion B; subst.
      + apply mem_false in H0. rewrite H0 in V2. discriminate V2.
      + eapply G; [eassumption | left; assumption].
      + congruence.
      + eapply G; [eassumption | right; assumption].
  Qed.
End Refuse.

(** ** flatten_filters *)
Section Flatten.
  Context {L : Type}.
  Fixpoint fobj_ind' (P : fobj L -> Prop) (HL : forall l, P (OLeaf l)) (HO : P OOther)
      (HG : forall cs, Forall P cs -> P (OGroup cs)) (HI : forall cs, Forall P cs -> P (OList cs)) (o : fobj L) : P o :=
    let all := (fix go (l : list (fobj L)) : Forall P l :=
        match l with [] => Forall_nil _ | x :: r => Forall_cons _ (fobj_ind' P HL HO HG HI x) (go r) end) in
    match o with
    | OLeaf l => HL l
    | OOther => HO
    | OGroup cs => HG cs (all cs)
    | OList cs => HI cs (all cs)
    end.

  Lemma recurse_items (cs : list (fobj L)) : Forall (fun o : fobj L => exists ls : list L, reads o ls /\ forall flat, recurse o flat = flat ++ ls) cs ->
    exists lss, Forall2 reads cs lss /\ forall flat,
      (fix go (l : list (fobj L)) (flat : list L) : list L := match l with [] => flat | x :: r => go r (recurse x flat) end) cs flat = flat ++ List.concat lss.
  Proof.
    induction 1 as [|o cs [ls [R E]] F [lss [R2 E2]]].
    - exists []. split; [constructor|]. intros flat. simpl. rewrite app_nil_r. reflexivity.
    - exists (ls :: lss). split; [constructor; assumption|]. intros flat. rewrite E, E2. simpl. rewrite app_assoc. reflexivity.
  Qed.
  Lemma recurse_reads (o : fobj L) : exists ls : list L, reads o ls /\ forall flat, recurse o flat = flat ++ ls.
  Proof.
    induction o as [l| |cs IH|cs IH] using fobj_ind'.
    - exists [l]. split; [constructor | reflexivity].
    - exists []. split; [constructor | intros flat; simpl; rewrite app_nil_r; reflexivity].
    - destruct (recurse_items cs IH) as [lss [R E]]. exists (List.concat lss). split; [constructor; exact R | exact E].
    - destruct (recurse_items cs IH) as [lss [R E]]. exists (List.concat lss). split; [constructor; exact R | exact E].
  Qed.
  Lemma flatten_reads (o : fobj L) : reads o (flatten_filters o).
  Proof. destruct (recurse_reads o) as [ls [R E]]. unfold flatten_filters. rewrite E. exact R. Qed.
  Lemma reads_unique (o : fobj L) : forall l1 l2 : list L, reads o l1 -> reads o l2 -> l1 = l2.
  Proof.
    assert (G : forall cs : list (fobj L), Forall (fun o => forall l1 l2, reads o l1 -> reads o l2 -> l1 = l2) cs ->
              forall a b, Forall2 reads cs a -> Forall2 reads cs b -> a = b).
    { induction 1 as [|o' cs Ho F IH]; intros a b Fa Fb; inversion Fa; inversion Fb; subst; [reflexivity|]. f_equal; [eapply Ho; eassumption | apply IH; assumption]. }
    induction o as [l| |cs IH|cs IH] using fobj_ind'; intros l1 l2 R1 R2; inversion R1; inversion R2; subst; try reflexivity; f_equal; eapply G; eassumption.
  Qed.
  Lemma reads_occurs (o : fobj L) : forall ls : list L, reads o ls -> forall l, In l ls <-> occurs l o.
  Proof.
    assert (G : forall cs lss, Forall (fun o => forall ls, reads o ls -> forall l, In l ls <-> occurs l o) cs -> Forall2 reads cs lss ->
              forall l : L, In l (List.concat lss) <-> exists o, In o cs /\ occurs l o).
    { clear o. intros cs lss F F2. induction F2 as [|o ls cs lss R F2 IH]; intros l.
      - simpl. split; [intros [] | intros [o [[] _]]].
      - inversion F as [|? ? Ho Fr]; subst. simpl. rewrite in_app_iff, (Ho ls R l), (IH Fr l). split.
        + intros [H|[o' [I H]]]; [exists o; auto | exists o'; auto].
        + intros [o' [[->|I] H]]; [left; exact H | right; exists o'; auto]. }
    induction o as [l| |cs IH|cs IH] using fobj_ind'; intros ls R; inversion R; subst; intros k.
    - split; [intros [<-|[]]; constructor | intros H; inversion H; left; reflexivity].
    - split; [intros [] | intros H; inversion H].
    - rewrite (G cs ls0 IH H0 k). split; [intros [o [I H]]; econstructor; eassumption | intros H; inversion H; subst; eauto].
    - rewrite (G cs ls0 IH H0 k). split; [intros [o [I H]]; econstructor; eassumption | intros H; inversion H; subst; eauto].
  Qed.
End Flatten.
