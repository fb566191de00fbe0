(** Lemmas for Args_Props.v *)
From Coq Require Import List String Bool Arith Lia.
From Verif Require Import PyBase PyStr Mapping_Model Mapping_Proofs Mapping_Props Args_Model.
Import ListNotations.
Local Open Scope string_scope.
Local Open Scope list_scope.

(** * The caller's dicts *)
Section Dicts.
  Variable R : Type.
  Notation cdict := (cdict R).
  (** Nothing is wrapped: neither the dict nor, through groups, any of its members has conditional_filter_logic *)
  Fixpoint no_wrap (d : cdict) : Prop :=
    match d with CDict _ cs l _ _ _ => l = None /\ match cs with Some cs => (fix all (l : list cdict) : Prop := match l with [] => True | x :: r => no_wrap x /\ all r end) cs | None => True end end.
  (** What is wrapped in it holds nothing wrapped *)
  Fixpoint once (d : cdict) : Prop :=
    match d with
    | CDict _ _ (Some x) _ _ _ => no_wrap x
    | CDict _ (Some cs) None _ _ _ => (fix all (l : list cdict) : Prop := match l with [] => True | x :: r => once x /\ all r end) cs
    | CDict _ None None _ _ _ => True
    end.
  Section Ind.
    Variable P : cdict -> Prop.
    Hypothesis HL : forall f l u s r, P (CDict f None l u s r).
    Hypothesis HG : forall f cs l u s r, Forall P cs -> P (CDict f (Some cs) l u s r).
    Fixpoint cdict_ind' (d : cdict) : P d :=
      match d with
      | CDict f None l u s r => HL f l u s r
      | CDict f (Some cs) l u s r => HG f cs l u s r ((fix all (l : list cdict) : Forall P l := match l with [] => Forall_nil _ | x :: t => Forall_cons x (cdict_ind' x) (all t) end) cs)
      end.
  End Ind.
  Lemma no_wrap_group f (cs : list cdict) l u s r : no_wrap (CDict f (Some cs) l u s r) <-> l = None /\ Forall no_wrap cs.
  Proof.
    cbn [no_wrap]. assert (E : (fix all (l : list cdict) : Prop := match l with [] => True | x :: r => no_wrap x /\ all r end) cs <-> Forall no_wrap cs); [|rewrite E; reflexivity].
    induction cs as [|x cs IH]; [split; auto|]. split; [intros [A B]; constructor; tauto | intros F; inversion F; subst; tauto].
  Qed.
  Lemma once_group f (cs : list cdict) u s r : once (CDict f (Some cs) None u s r) <-> Forall once cs.
  Proof.
    cbn [once]. induction cs as [|x cs IH]; [split; auto|]. split; [intros [A B]; constructor; tauto | intros F; inversion F; subst; tauto].
  Qed.
  Lemma no_wrap_once d : no_wrap d -> once d.
  Proof.
    induction d as [f l u s r|f cs l u s r IH] using cdict_ind'; [cbn; intros [-> _]; exact I|]. rewrite no_wrap_group. intros [-> F]. rewrite once_group.
    rewrite Forall_forall in *. auto.
  Qed.
  Lemma no_wrap_process d : no_wrap d -> process d = d.
  Proof.
    induction d as [f l u s r|f cs l u s r IH] using cdict_ind'; [cbn; intros [-> _]; reflexivity|]. rewrite no_wrap_group. intros [-> F]. cbn [process]. do 2 f_equal.
    clear - IH F. induction cs as [|c cs IHc]; [reflexivity|]. inversion IH; inversion F; subst. cbn [map]. f_equal; auto.
  Qed.
  Lemma once_process d : once d -> no_wrap (process d).
  Proof.
    induction d as [f l u s r|f cs l u s r IH] using cdict_ind'; [destruct l as [x|]; cbn; auto|]. destruct l as [x|]; [cbn; auto|]. rewrite once_group. intros F. cbn [process]. rewrite no_wrap_group. split; [reflexivity|].
    apply Forall_map. rewrite Forall_forall in *. auto.
  Qed.
  (** A dict is not what it wraps *)
  Fixpoint depth (d : cdict) : nat := match d with CDict _ _ l _ _ _ => match l with Some x => S (depth x) | None => 0 end end.
  Lemma wraps_other f cs (x : cdict) u s r : CDict f cs (Some x) u s r <> x.
  Proof. intros E. apply (f_equal depth) in E. cbn [depth] in E. lia. Qed.
  Lemma process_same d : process d = d -> no_wrap d.
  Proof.
    induction d as [f l u s r|f cs l u s r IH] using cdict_ind'.
    - destruct l as [x|]; [|intros _; cbn; auto]. cbn [process]. intros E. exfalso. exact (wraps_other _ _ _ _ _ _ (eq_sym E)).
    - destruct l as [x|]; [cbn [process]; intros E; exfalso; exact (wraps_other _ _ _ _ _ _ (eq_sym E))|]. cbn [process]. intros E. injection E as E. rewrite no_wrap_group. split; [reflexivity|].
      clear - IH E. induction cs as [|c cs IHc]; [constructor|]. inversion IH; subst. cbn [map] in E. injection E as E1 E2. constructor; auto.
  Qed.

  Variable get_mapped : string -> option mapping.
  Notation stamp := (stamp get_mapped).
  Notation touched := (touched get_mapped).
  Lemma stamp_parts ns (d : cdict) : exists s, stamp ns d = CDict (cd_field d) (cd_conds d) (cd_logic d) (cd_funnel d) s (let '(CDict _ _ _ _ _ r) := d in r).
  Proof. destruct d as [f cs l u s r]. cbn [Args_Model.stamp cd_field cd_conds cd_logic cd_funnel]. destruct (u && _); eauto. Qed.
  Lemma as_robj_stamp ns (d : cdict) : as_robj (stamp ns d) = as_robj d.
  Proof. destruct (stamp_parts ns d) as [s ->]. destruct d as [f cs l u s' r]. reflexivity. Qed.
  Lemma no_wrap_stamp ns (d : cdict) : no_wrap d -> no_wrap (stamp ns d).
  Proof. destruct (stamp_parts ns d) as [s ->]. destruct d as [f cs l u s' r]. auto. Qed.
  (** An element of the list a clause was given as *)
  Definition top_ok (d : cdict) : Prop := cd_logic d = None -> once d.
  Lemma touched_cleaned ns (d : cdict) : top_ok d -> as_robj (process (touched ns d)) = as_robj (process d).
  Proof.
    intros T. destruct d as [f cs [x|] u s r]; [destruct cs; apply as_robj_stamp|]. specialize (T eq_refl).
    change (touched ns (CDict f cs None u s r)) with (stamp ns (process (CDict f cs None u s r))).
    rewrite no_wrap_process by (apply no_wrap_stamp, once_process, T). apply as_robj_stamp.
  Qed.
  Lemma touched_ok ns (d : cdict) : top_ok d -> top_ok (touched ns d).
  Proof.
    intros T. destruct d as [f cs [x|] u s r]; [cbn [Args_Model.touched]; intros E; discriminate|]. specialize (T eq_refl). intros _.
    change (touched ns (CDict f cs None u s r)) with (stamp ns (process (CDict f cs None u s r))). apply no_wrap_once, no_wrap_stamp, once_process, T.
  Qed.
  Lemma leaves_cleaned (d : cdict) : top_ok d -> process (process_leaves d) = process d.
  Proof. intros T. destruct d as [f cs [x|] u s r]; [destruct cs; reflexivity|]. specialize (T eq_refl). unfold process_leaves. cbn [cd_logic]. apply no_wrap_process, once_process, T. Qed.
  Lemma leaves_ok (d : cdict) : top_ok d -> top_ok (process_leaves d).
  Proof. intros T. destruct d as [f cs [x|] u s r]; [exact T|]. specialize (T eq_refl). unfold process_leaves. cbn [cd_logic]. intros _. apply no_wrap_once, once_process, T. Qed.
End Dicts.
Arguments no_wrap {R}. Arguments once {R}. Arguments top_ok {R}.

(** * Names in a clause *)
Section Subst.
  Variable R : Type.
  Variable hg : R -> bool.
  Variable idents : string -> list string.
  (** The fields a condition asks about, renamed *)
  Fixpoint renamed (s : string -> string) (o : robj R) : robj R :=
    match o with
    | RDict (Some x) cs r => RDict (Some (s x)) cs r
    | RDict None (Some cs) r => RDict None (Some (map (renamed s) cs)) r
    | RDict None None r => RDict None None r
    end.
  Definition renamed_clause (s : string -> string) (c : clause R) : clause R := match c with CList l => CList (map (renamed s) l) | _ => c end.
  Lemma renamed_ext s t o : (forall x, s x = t x) -> renamed s o = renamed t o.
  Proof.
    intros E. induction o as [f r|f cs r IH] using robj_ind'; [destruct f; cbn; rewrite ?E; reflexivity|]. destruct f as [x|]; cbn [renamed]; [rewrite E; reflexivity|]. do 2 f_equal.
    clear - IH. induction cs as [|c cs IHc]; [reflexivity|]. inversion IH; subst. cbn [map]. f_equal; auto.
  Qed.
  Lemma renamed_id o : renamed (fun x => x) o = o.
  Proof.
    induction o as [f r|f cs r IH] using robj_ind'; [destruct f; reflexivity|]. destruct f as [x|]; [reflexivity|]. cbn [renamed]. do 2 f_equal.
    clear - IH. induction cs as [|c cs IHc]; [reflexivity|]. inversion IH; subst. cbn [map]. f_equal; auto.
  Qed.
  Lemma renamed_twice s t o : renamed s (renamed t o) = renamed (fun x => s (t x)) o.
  Proof.
    induction o as [f r|f cs r IH] using robj_ind'; [destruct f; reflexivity|]. destruct f as [x|]; [reflexivity|]. cbn [renamed]. do 2 f_equal. rewrite map_map.
    clear - IH. induction cs as [|c cs IHc]; [reflexivity|]. inversion IH; subst. cbn [map]. f_equal; auto.
  Qed.
  Lemma replace_renamed n id o : replace_obj n id o = renamed (sub1 n id) o.
  Proof.
    induction o as [f r|f cs r IH] using robj_ind'; [destruct f; reflexivity|]. destruct f as [x|]; [reflexivity|]. cbn [replace_obj renamed]. do 2 f_equal.
    clear - IH. induction cs as [|c cs IHc]; [reflexivity|]. inversion IH; subst. cbn [map]. f_equal; auto.
  Qed.
  Lemma replace_after n id s o : replace_obj n id (renamed s o) = renamed (fun x => sub1 n id (s x)) o.
  Proof. rewrite replace_renamed, renamed_twice. reflexivity. Qed.
  Lemma concatM_app {A B} (f : A -> res (list B)) l m : concatM f (l ++ m) = (x <- concatM f l ;; y <- concatM f m ;; Ok (x ++ y)).
  Proof.
    induction l as [|a l IH]; cbn [app concatM]; [cbn [bind]; destruct (concatM f m); reflexivity|]. rewrite IH. destruct (f a) as [x|]; cbn [bind]; [|reflexivity].
    destruct (concatM f l) as [y|]; cbn [bind]; [|reflexivity]. destruct (concatM f m) as [z|]; cbn [bind]; [|reflexivity]. rewrite app_assoc. reflexivity.
  Qed.
  Lemma fields_app l m : clause_fields hg idents (CList (l ++ m)) = (x <- clause_fields hg idents (CList l) ;; y <- clause_fields hg idents (CList m) ;; Ok (x ++ y)).
  Proof. cbn [clause_fields]. rewrite flat_map_app. apply concatM_app. Qed.
  (** n times the same list *)
  Definition times {A} (n : nat) (l : list A) : list A := List.concat (repeat l n).
  Lemma times_In {A} n (l : list A) x : In x (times n l) -> In x l.
  Proof. unfold times. induction n as [|n IH]; cbn [repeat List.concat]; [intros []|]. intros I. apply in_app_iff in I. tauto. Qed.
  Lemma times_map {A B} (f : A -> B) n l : map f (times n l) = times n (map f l).
  Proof. unfold times. induction n as [|n IH]; cbn [repeat List.concat]; [reflexivity|]. rewrite map_app, IH. reflexivity. Qed.
  Lemma times_S {A} n (l : list A) : times (S n) l = times n l ++ l.
  Proof. unfold times. induction n as [|n IH]; cbn [repeat List.concat app] in *; [rewrite app_nil_r; reflexivity|]. rewrite <- app_assoc, <- IH. reflexivity. Qed.
  Lemma fields_times n l a : clause_fields hg idents (CList l) = Ok a -> clause_fields hg idents (CList (times n l)) = Ok (times n a).
  Proof.
    intros E. induction n as [|n IH]; [reflexivity|]. rewrite (times_S n l), (times_S n a), fields_app, IH, E. reflexivity.
  Qed.
End Subst.
Arguments renamed {R}. Arguments renamed_clause {R}.

(** * The same names more than once *)
Section Again.
  Variable R : Type.
  Variable hg : R -> bool.
  Variable get_field : string -> res mfld.
  Variable get_mapped : string -> option mapping.
  Variable special : string -> bool.
  Variable n_measures : string -> res nat.
  Variable enum : list string -> list string.
  Variable idents : string -> list string.
  Notation cfields := (clause_fields hg idents).
  Notation resolve := (resolve hg get_field get_mapped special n_measures enum idents).
  Notation look_up := (look_up get_field get_mapped).

  Lemma put_same {V} k (v : V) d : assoc k d = Some v -> put k v d = d.
  Proof.
    induction d as [|[k' v'] d IH]; cbn [assoc put]; [discriminate|]. destruct (String.eqb_spec k k') as [->|N]; [intros E; injection E as ->; reflexivity|].
    intros E. rewrite IH by exact E. reflexivity.
  Qed.
  Lemma look_up_app l m : forall ml o, look_up (l ++ m) ml o = (p <- look_up l ml o ;; look_up m (fst p) (snd p)).
  Proof.
    induction l as [|[b n] l IH]; intros ml o; [reflexivity|]. cbn [app Mapping_Model.look_up]. destruct (get_mapped n) as [mp|]; [apply IH|]. destruct (get_field n) as [f|]; cbn [bind]; [apply IH | reflexivity].
  Qed.
  Lemma look_up_known l : forall ml o, (forall n, In n l -> match get_mapped n with Some m => assoc n ml = Some (m, true) | None => exists f, get_field n = Ok f /\ assoc n o = Some f end) ->
    look_up (map (fun n => (true, n)) l) ml o = Ok (ml, o).
  Proof.
    induction l as [|n l IH]; intros ml o H; [reflexivity|]. cbn [map Mapping_Model.look_up]. pose proof (H n (or_introl eq_refl)) as K. assert (H' : forall k, In k l -> match get_mapped k with Some m => assoc k ml = Some (m, true) | None => exists f, get_field k = Ok f /\ assoc k o = Some f end) by (intros k I; apply H; right; exact I).
    destruct (get_mapped n) as [m|]; [rewrite put_same by exact K; apply IH; exact H'|]. destruct K as [f [F A]]. rewrite F. cbn [bind]. rewrite put_same by exact A. apply IH. exact H'.
  Qed.
  Definition all_true (ml : list (string * (mapping * bool))) : Prop := forall n m b, assoc n ml = Some (m, b) -> b = true.
  Lemma look_up_true l : forall ml o ml' o', all_true ml -> look_up (map (fun n => (true, n)) l) ml o = Ok (ml', o') ->
    all_true ml' /\ (forall n, In n l -> match get_mapped n with Some m => assoc n ml' = Some (m, true) | None => exists f, get_field n = Ok f /\ assoc n o' = Some f end) /\
    (forall n m, assoc n ml = Some (m, true) -> get_mapped n = Some m -> assoc n ml' = Some (m, true)) /\ (forall n f, assoc n o = Some f -> get_field n = Ok f -> assoc n o' = Some f).
  Proof.
    induction l as [|n l IH]; intros ml o ml' o' T E; cbn [map Mapping_Model.look_up] in E.
    - injection E as <- <-. split; [exact T|]. split; [intros n []|]. auto.
    - destruct (get_mapped n) as [m|] eqn:G.
      + assert (T' : all_true (put n (m, true) ml)). { intros k m' b A. rewrite put_assoc in A. destruct (String.eqb k n); [congruence | exact (T k m' b A)]. }
        destruct (IH _ _ _ _ T' E) as [B1 [B2 [B3 B4]]]. split; [exact B1|]. split; [|split; [|exact B4]].
        * intros k [<-|I]; [rewrite G; apply B3; [rewrite put_assoc, String.eqb_refl; reflexivity | exact G] | apply B2; exact I].
        * intros k m' A K. apply B3; [|exact K]. rewrite put_assoc. destruct (String.eqb_spec k n) as [->|]; [congruence | exact A].
      + apply bind_ok in E. destruct E as [f [F E]]. destruct (IH _ _ _ _ T E) as [B1 [B2 [B3 B4]]]. split; [exact B1|]. split; [|split; [exact B3|]].
        * intros k [<-|I]; [rewrite G; exists f; split; [exact F|]; apply B4; [rewrite put_assoc, String.eqb_refl; reflexivity | exact F] | apply B2; exact I].
        * intros k f' A K. apply B4; [|exact K]. rewrite put_assoc. destruct (String.eqb_spec k n) as [->|]; [congruence | exact A].
  Qed.
  Lemma look_up_times n a : forall ml o ml' o', all_true ml -> look_up (map (fun n => (true, n)) a) ml o = Ok (ml', o') -> look_up (map (fun n => (true, n)) (times (S n) a)) ml o = Ok (ml', o').
  Proof.
    intros ml o ml' o' T E. unfold times. cbn [repeat List.concat]. rewrite map_app, look_up_app, E. cbn [bind fst snd]. apply look_up_known. intros k I.
    apply (look_up_true a _ _ _ _ T E). apply (times_In n). exact I.
  Qed.

  (** Two requests that differ in how often some conditions are repeated, along the same replacements *)
  Record alike (W A : list (robj R)) (k : nat) (s : string -> string) (q q' : query R) : Prop := Alike {
    ak_metrics : q_metrics q' = q_metrics q; ak_dims : q_dims q' = q_dims q; ak_having : q_having q' = q_having q; ak_order : q_order q' = q_order q; ak_forced : q_forced q' = q_forced q;
    ak_where : q_where q = CList (map (renamed s) (W ++ A)); ak_where' : q_where q' = CList (map (renamed s) (W ++ times k A));
    ak_fixes : forall x, get_mapped x = None -> s x = x }.
  Definition same_names (ns ns' : names) : Prop :=
    (forall n, mem n (n_where ns') = mem n (n_where ns)) /\ n_having ns' = n_having ns /\ n_order ns' = n_order ns /\ (forall n, mem n (n_all ns') = mem n (n_all ns)).
  Lemma alike_replace ns ns' W A k s q q' n f r : same_names ns ns' -> get_mapped n <> None -> alike W A k s q q' -> replace_mapped ns n f q = Ok r ->
    exists s' r', replace_mapped ns' n f q' = Ok r' /\ alike W A k s' r r'.
  Proof.
    intros [N1 [N2 [N3 N4]]] G [H1 H2 H3 H4 H5 H6 H7 H8] E. unfold replace_mapped in *. rewrite N1, N2, N3, N4, H1, H2, H3, H4, H5. destruct (mem n (n_all ns)); [|discriminate]. injection E as <-.
    exists (if mem n (n_where ns) then fun x => sub1 n (fl_id f) (s x) else s). eexists. split; [reflexivity|]. constructor; cbn [q_metrics q_dims q_having q_order q_forced q_where]; try reflexivity.
    - destruct (mem n (n_where ns)); [|exact H6]. rewrite H6. cbn [replace_clause]. rewrite map_map. f_equal. apply map_ext. intros x. apply replace_after.
    - destruct (mem n (n_where ns)); [|exact H7]. rewrite H7. cbn [replace_clause]. rewrite map_map. f_equal. apply map_ext. intros x. apply replace_after.
    - intros x K. destruct (mem n (n_where ns)); [|apply H8; exact K]. rewrite (H8 x K). unfold sub1. destruct (String.eqb_spec x n) as [->|]; [congruence | reflexivity].
  Qed.
  Lemma replacement_alike o J U m W A k s q q' : alike W A k s q q' -> replacement get_field special n_measures enum o J U m q' = replacement get_field special n_measures enum o J U m q.
  Proof. intros [H1 H2 _ _ _ _ _ _]. unfold replacement. rewrite H1, H2. reflexivity. Qed.
  Lemma alike_forced W A k s q q' b : alike W A k s q q' -> alike W A k s (set_forced b q) (set_forced b q').
  Proof. intros [H1 H2 H3 H4 H5 H6 H7 H8]. constructor; cbn [set_forced q_metrics q_dims q_having q_order q_forced q_where]; auto. rewrite H5. reflexivity. Qed.
  Lemma alike_all ns ns' W A k o J U : same_names ns ns' -> forall ml s q q' r, (forall n v, In (n, v) ml -> get_mapped n <> None) -> alike W A k s q q' ->
    replace_all get_field special n_measures enum ns o J U ml q = Ok r ->
    exists s' r', replace_all get_field special n_measures enum ns' o J U ml q' = Ok r' /\ alike W A k s' r r'.
  Proof.
    intros SN. induction ml as [|[n [m b]] ml IH]; intros s q q' r G H E; cbn [replace_all] in *; [injection E as <-; exists s, q'; auto|].
    assert (G' : forall k v, In (k, v) ml -> get_mapped k <> None) by (intros k' v I; apply (G k' v); right; exact I). destruct b; [|apply (IH s q q' r G' H E)].
    apply bind_ok in E. destruct E as [[f b] [RE E]]. apply bind_ok in E. destruct E as [q1 [RM E]]. rewrite (replacement_alike _ _ _ _ _ _ _ _ _ _ H), RE. cbn [bind fst snd] in *.
    destruct (alike_replace _ _ _ _ _ _ _ _ _ _ _ SN (G n _ (or_introl eq_refl)) (alike_forced _ _ _ _ _ _ b H) RM) as [s1 [r1 [E1 H1]]]. rewrite E1. cbn [bind]. exact (IH s1 q1 r1 r G' H1 E).
  Qed.
  Lemma alike_rest ns ns' W A k l done : same_names ns ns' -> forall ml s q q' r, (forall n v, In (n, v) ml -> get_mapped n <> None) -> alike W A k s q q' ->
    replace_rest get_field ns l done ml q = Ok r -> exists s' r', replace_rest get_field ns' l done ml q' = Ok r' /\ alike W A k s' r r'.
  Proof.
    intros SN. induction ml as [|[n [m b]] ml IH]; intros s q q' r G H E; cbn [replace_rest] in *; [injection E as <-; exists s, q'; auto|].
    assert (G' : forall k v, In (k, v) ml -> get_mapped k <> None) by (intros k' v I; apply (G k' v); right; exact I). destruct (String.eqb n done); [apply (IH s q q' r G' H E)|].
    apply bind_ok in E. destruct E as [u [US E]]. apply bind_ok in E. destruct E as [t [HI E]]. apply bind_ok in E. destruct E as [f [D E]]. apply bind_ok in E. destruct E as [q1 [RM E]].
    rewrite US. cbn [bind]. rewrite HI. cbn [bind]. rewrite D. cbn [bind].
    destruct (alike_replace _ _ _ _ _ _ _ _ _ _ _ SN (G n _ (or_introl eq_refl)) H RM) as [s1 [r1 [E1 H1]]]. rewrite E1. cbn [bind]. exact (IH s1 q1 r1 r G' H1 E).
  Qed.
  Lemma mem_same_members (l m : list string) n : (forall x, In x l <-> In x m) -> mem n l = mem n m.
  Proof. intros H. destruct (mem n m) eqn:E; [apply mem_In; apply H; apply mem_In; exact E | apply mem_false; rewrite H; apply mem_false; exact E]. Qed.
  Lemma In_times {A} k (l : list A) x : In x (times (S k) l) <-> In x l.
  Proof. split; [apply times_In|]. unfold times. cbn [repeat List.concat]. intros I. apply in_app_iff. auto. Qed.

  Lemma in_assoc_nodup {V} (d : list (string * V)) n v : NoDup (map fst d) -> In (n, v) d -> assoc n d = Some v.
  Proof.
    induction d as [|[k u] d IH]; intros ND I; [destruct I|]. cbn [assoc]. cbn [map fst] in ND. inversion ND; subst. destruct I as [I|I]; [injection I as -> ->; rewrite String.eqb_refl; reflexivity|].
    destruct (String.eqb_spec n k) as [->|]; [exfalso; apply H1; apply in_map_iff; exists (k, v); auto | apply IH; assumption].
  Qed.
  (** Repeating conditions changes nothing else *)
  Lemma resolve_times m d W A h o k r : resolve [] (Query m d (CList (W ++ A)) h o false) = Ok r ->
    exists s r', resolve [] (Query m d (CList (W ++ times (S k) A)) h o false) = Ok r' /\ alike W A (S k) s r r'.
  Proof.
    intros E. unfold Mapping_Model.resolve in *. cbn [q_where q_having q_order q_metrics q_dims] in *. rewrite fields_app in *.
    destruct (cfields (CList W)) as [w|] eqn:CW; cbn [bind] in *; [|discriminate]. destruct (cfields (CList A)) as [a|] eqn:CA; cbn [bind] in *; [|discriminate]. rewrite (fields_times R hg idents (S k) A a CA). cbn [bind].
    destruct (cfields h) as [hn|]; cbn [bind] in *; [|discriminate]. destruct (cfields o) as [on|]; cbn [bind] in *; [|discriminate]. cbn zeta in *. cbn [filter map] in *. rewrite app_nil_r in *.
    apply bind_ok in E. destruct E as [[ml objs] [LU E]].
    assert (LU' : look_up (map (fun n => (true, n)) (m ++ d ++ (w ++ times (S k) a) ++ hn ++ on)) [] [] = Ok (ml, objs)).
    { replace (m ++ d ++ (w ++ times (S k) a) ++ hn ++ on) with ((m ++ d ++ w) ++ times (S k) a ++ hn ++ on) by (rewrite <- !app_assoc; reflexivity).
      replace (m ++ d ++ (w ++ a) ++ hn ++ on) with ((m ++ d ++ w) ++ a ++ hn ++ on) in LU by (rewrite <- !app_assoc; reflexivity).
      clear E. revert LU. generalize (m ++ d ++ w) as P. generalize (hn ++ on) as Q. intros Q P LU.
      rewrite map_app, look_up_app in *. apply bind_ok in LU. destruct LU as [[ml1 o1] [L1 LU]]. rewrite L1. cbn [bind fst snd] in *. rewrite map_app, look_up_app in *. apply bind_ok in LU. destruct LU as [[ml2 o2] [L2 LU]].
      assert (T1 : all_true ml1). { refine (proj1 (look_up_true _ _ _ _ _ _ L1)). intros x y z K. discriminate. }
      rewrite (look_up_times k a _ _ _ _ T1 L2). cbn [bind]. exact LU. }
    rewrite LU'. cbn [bind].
    destruct (look_up_spec get_field get_mapped special n_measures enum idents _ _ _ _ _ LU) as [A1 [A2 [A3 _]]]; [constructor | discriminate | discriminate |].
    assert (G : forall n v, In (n, v) ml -> get_mapped n <> None).
    { intros n [mp b] I. destruct (A3 n mp b (in_assoc_nodup ml n (mp, b) A1 I)) as [K _]. congruence. }
    assert (AK : alike W A (S k) (fun x => x) (Query m d (CList (W ++ A)) h o false) (Query m d (CList (W ++ times (S k) A)) h o false)).
    { assert (ID : forall l : list (robj R), map (renamed (fun x => x)) l = l) by (intros l; rewrite <- (map_id l) at 2; apply map_ext; apply renamed_id). constructor; cbn [q_metrics q_dims q_having q_order q_forced q_where]; rewrite ?ID; reflexivity. }
    assert (SN : same_names (Names (w ++ a) hn on (m ++ d ++ (w ++ a) ++ hn ++ on)) (Names (w ++ times (S k) a) hn on (m ++ d ++ (w ++ times (S k) a) ++ hn ++ on))).
    { split; [|split; [reflexivity|split; [reflexivity|]]]; intros n; cbn [n_where n_all]; apply mem_same_members; intros x; rewrite !in_app_iff; rewrite In_times; reflexivity. }
    destruct ml as [|e0 ml0] eqn:EML; [injection E as <-; eauto|]. rewrite <- EML in *. destruct objs as [|o0 objs0] eqn:EO.
    - unfold only_mapped in *. apply bind_ok in E. destruct E as [c [CK E]]. rewrite CK. cbn [bind]. apply bind_ok in E. destruct E as [[n f] [NF E]]. rewrite NF. cbn [bind fst snd] in *. apply bind_ok in E. destruct E as [q1 [RM E]].
      assert (GN : get_mapped n <> None).
      { clear E RM. destruct (valid_items c) as [|i is] eqn:VI.
        - destruct ml as [|[n0 [m0 b0]] [|]]; try discriminate. destruct (mp_fields m0); [discriminate|]. apply bind_ok in NF. destruct NF as [f' [_ NF]]. injection NF as <- <-. apply (G n0 (m0, b0)). left. reflexivity.
        - destruct ml as [|[n0 [m0 b0]] [|e1 ml1]]; [discriminate | destruct (mp_fields m0); [discriminate|]; apply bind_ok in NF; destruct NF as [f' [_ NF]]; injection NF as <- <-; apply (G n0 (m0, b0)); left; reflexivity|].
          destruct (PySort.isort item_geb (i :: is)) as [|[n1 [x1 p1]] t] eqn:IS; [discriminate|]. apply bind_ok in NF. destruct NF as [f' [_ NF]]. injection NF as <- <-.
          assert (IV : In (n1, (x1, p1)) (valid_items c)). { rewrite VI. apply (PySort.isort_In item_geb). rewrite IS. left. reflexivity. }
          destruct (valid_items_spec _ _ _ _ IV) as [fs [g [IC _]]]. destruct (check_spec _ _ _ CK _ _ IC) as [m1 [b1 [IM1 _]]]. exact (G n1 _ IM1). }
      destruct (alike_replace _ _ _ _ _ _ _ _ _ _ _ SN GN AK RM) as [s1 [r1 [E1 H1]]]. rewrite E1. cbn [bind]. exact (alike_rest _ _ _ _ _ _ _ SN _ _ _ _ _ G H1 E).
    - rewrite <- EO in *. apply bind_ok in E. destruct E as [u [US E]]. rewrite US. cbn [bind]. apply bind_ok in E. destruct E as [t [HI E]]. rewrite HI. cbn [bind].
      exact (alike_all _ _ _ _ _ _ _ _ SN _ _ _ _ _ G AK E).
  Qed.
End Again.

(** * The replacements of a run, one by one *)
Section Trace.
  Variable R : Type.
  Variable hg : R -> bool.
  Variable get_field : string -> res mfld.
  Variable get_mapped : string -> option mapping.
  Variable special : string -> bool.
  Variable n_measures : string -> res nat.
  Variable enum : list string -> list string.
  Variable idents : string -> list string.
  Notation cfields := (clause_fields hg idents).
  Notation resolve := (resolve hg get_field get_mapped special n_measures enum idents).
  Inductive steps (ns : names) : list (string * mfld) -> query R -> query R -> Prop :=
  | steps_nil q : steps ns [] q q
  | steps_cons n f b t q q1 r : replace_mapped ns n f (set_forced b q) = Ok q1 -> steps ns t q1 r -> steps ns ((n, f) :: t) q r.
  Lemma set_forced_false (q : query R) : set_forced false q = q.
  Proof. destruct q. unfold set_forced. cbn. rewrite orb_false_r. reflexivity. Qed.
  Lemma replacement_found o J U m (q : query R) f b : (forall n g, assoc n o = Some g -> exists x, get_field x = Ok g) -> replacement get_field special n_measures enum o J U m q = Ok (f, b) -> exists x, get_field x = Ok f.
  Proof.
    intros H E. destruct (replacement_cases _ get_field special n_measures enum o J U m q f b E) as [[_ [c C]]|D]; [eauto|]. apply determine_got in D. destruct D as [x [_ X]]. eauto.
  Qed.
  Lemma trace_all ns o J U : forall ml (q r : query R), NoDup (map fst ml) -> (forall n m b, In (n, (m, b)) ml -> b = true) ->
    replace_all get_field special n_measures enum ns o J U ml q = Ok r ->
    exists t, steps ns t q r /\ map fst t = map fst ml /\ forall n f, In (n, f) t -> exists x, get_field x = Ok f.
  Proof.
    induction ml as [|[n [m b]] ml IH]; intros q r ND T E; cbn [replace_all] in E; [injection E as <-; exists []; split; [constructor|]; split; [reflexivity | intros n f []]|].
    assert (b = true) by (apply (T n m); left; reflexivity). subst b. apply bind_ok in E. destruct E as [[f b] [RE E]]. apply bind_ok in E. destruct E as [q1 [RM E]]. cbn [fst snd] in *.
    cbn [map fst] in ND. inversion ND; subst. destruct (IH q1 r) as [t [S1 [S2 S3]]]; [assumption | intros k m' b' I; apply (T k m'); right; exact I | exact E |].
    exists ((n, f) :: t). split; [econstructor; eassumption|]. split; [cbn [map fst]; rewrite S2; reflexivity|]. intros k g [I|I]; [injection I as <- <-|exact (S3 k g I)].
    destruct (replacement_cases _ get_field special n_measures enum o J U m q f b RE) as [[_ [c C]]|D]; [eauto|]. apply determine_got in D. destruct D as [x [_ X]]. eauto.
  Qed.
  Lemma trace_rest ns l done : forall ml (q r : query R), replace_rest get_field ns l done ml q = Ok r ->
    exists t, steps ns t q r /\ map fst t = filter (fun n => negb (String.eqb n done)) (map fst ml) /\ forall n f, In (n, f) t -> exists x, get_field x = Ok f.
  Proof.
    induction ml as [|[n [m b]] ml IH]; intros q r E; cbn [replace_rest] in E; [injection E as <-; exists []; split; [constructor|]; split; [reflexivity | intros n f []]|].
    cbn [map fst filter]. destruct (String.eqb n done) eqn:D; cbn [negb]; [apply IH; exact E|].
    apply bind_ok in E. destruct E as [u [US E]]. apply bind_ok in E. destruct E as [t0 [HI E]]. apply bind_ok in E. destruct E as [f [DE E]]. apply bind_ok in E. destruct E as [q1 [RM E]].
    destruct (IH q1 r E) as [t [S1 [S2 S3]]]. exists ((n, f) :: t). split; [apply (steps_cons ns n f false t q q1 r); [rewrite set_forced_false; exact RM | exact S1]|].
    split; [cbn [map fst]; rewrite S2; reflexivity|]. intros k g [I|I]; [injection I as <- <-|exact (S3 k g I)]. apply determine_got in DE. destruct DE as [x [_ X]]. eauto.
  Qed.
  (** Every mapped name of the query is replaced once, by a field that is found *)
  Lemma trace q r w h o : cfields (q_where q) = Ok w -> cfields (q_having q) = Ok h -> cfields (q_order q) = Ok o -> resolve [] q = Ok r ->
    let all := q_metrics q ++ q_dims q ++ w ++ h ++ o in
    exists t, steps (Names w h o all) t q r /\ NoDup (map fst t) /\ (forall n, In n (map fst t) <-> In n all /\ get_mapped n <> None) /\ (forall n f, In (n, f) t -> exists x, get_field x = Ok f) /\
      (forall n, In n all -> get_mapped n = None -> exists f, get_field n = Ok f).
  Proof.
    intros CW CH CO E all. unfold Mapping_Model.resolve in E. rewrite CW, CH, CO in E. cbn [bind] in E. fold all in E. cbn zeta in E. cbn [filter map] in E. rewrite app_nil_r in E.
    apply bind_ok in E. destruct E as [[ml objs] [LU E]].
    destruct (look_up_spec get_field get_mapped special n_measures enum idents _ _ _ _ _ LU) as [A1 [A2 [A3 _]]]; [constructor | discriminate | discriminate |].
    destruct (look_up_true get_field get_mapped _ _ _ _ _ (fun n m b (K : assoc n [] = Some (m, b)) => ltac:(discriminate)) LU) as [T [B2 _]].
    assert (K1 : forall n, In n (map fst ml) <-> In n all /\ get_mapped n <> None).
    { intros n. split.
      - intros I. apply in_map_iff in I. destruct I as [[k [m b]] [<- I]]. cbn [fst]. destruct (A3 k m b (in_assoc_nodup ml k (m, b) A1 I)) as [G [B|B]]; [discriminate|]. split; [|congruence]. apply in_map_iff in B. destruct B as [y [B IY]]. injection B as <- <-. exact IY.
      - intros [I G]. specialize (B2 n I). destruct (get_mapped n) as [m|]; [|congruence]. apply assoc_In in B2. apply in_map_iff. exists (n, (m, true)). auto. }
    assert (K2 : forall n m b, In (n, (m, b)) ml -> b = true) by (intros n m b I; apply (T n m b); apply in_assoc_nodup; assumption).
    assert (K3 : forall n, In n all -> get_mapped n = None -> exists f, get_field n = Ok f). { intros n I G. specialize (B2 n I). rewrite G in B2. destruct B2 as [f [F _]]. eauto. }
    destruct ml as [|e0 ml0] eqn:EML.
    - injection E as <-. exists []. split; [constructor|]. split; [constructor|]. split; [exact K1|]. split; [intros n f [] | exact K3].
    - rewrite <- EML in *. destruct objs as [|o0 objs0] eqn:EO.
      + unfold only_mapped in E. apply bind_ok in E. destruct E as [c [CK E]]. apply bind_ok in E. destruct E as [[n f] [NF E]]. cbn [fst snd] in *. apply bind_ok in E. destruct E as [q1 [RM E]].
        assert (GN : In n (map fst ml) /\ exists x, get_field x = Ok f).
        { clear E RM. destruct (valid_items c) as [|i is] eqn:VI.
          - destruct ml as [|[n0 [m0 b0]] [|]]; try discriminate. destruct (mp_fields m0) as [|x xs]; [discriminate|]. apply bind_ok in NF. destruct NF as [f' [F' NF]]. injection NF as <- <-. split; [left; reflexivity | eauto].
          - destruct ml as [|[n0 [m0 b0]] [|e1 ml1]]; [discriminate | destruct (mp_fields m0) as [|x xs]; [discriminate|]; apply bind_ok in NF; destruct NF as [f' [F' NF]]; injection NF as <- <-; split; [left; reflexivity | eauto]|].
            destruct (PySort.isort item_geb (i :: is)) as [|[n1 [x1 p1]] t] eqn:IS; [discriminate|]. apply bind_ok in NF. destruct NF as [f' [F' NF]]. injection NF as <- <-. split; [|eauto].
            assert (IV : In (n1, (x1, p1)) (valid_items c)). { rewrite VI. apply (PySort.isort_In item_geb). rewrite IS. left. reflexivity. }
            destruct (valid_items_spec _ _ _ _ IV) as [fs [g [IC _]]]. destruct (check_spec _ _ _ CK _ _ IC) as [m1 [b1 [IM1 _]]]. apply in_map_iff. eexists. split; [|exact IM1]. reflexivity. }
        destruct GN as [GN GF]. destruct (trace_rest _ _ _ _ _ _ E) as [t [S1 [S2 S3]]]. exists ((n, f) :: t). split; [apply (steps_cons _ n f false t q q1 r); [rewrite set_forced_false; exact RM | exact S1]|].
        cbn [map fst]. rewrite S2. split; [constructor; [rewrite filter_In, String.eqb_refl; cbn [negb]; intros [_ K]; discriminate | apply NoDup_filter; exact A1]|].
        split; [|split; [|exact K3]].
        * intros k. rewrite <- K1. cbn [In]. rewrite filter_In. destruct (String.eqb_spec k n) as [->|N]; cbn [negb]; [intuition|]. split; [intros [Q|[Q _]]; [congruence | exact Q] | intros Q; right; auto].
        * intros k g [I|I]; [injection I as <- <-; exact GF | exact (S3 k g I)].
      + rewrite <- EO in *. apply bind_ok in E. destruct E as [u [US E]]. apply bind_ok in E. destruct E as [t0 [HI E]]. destruct (trace_all _ _ _ _ _ _ _ A1 K2 E) as [t [S1 [S2 S3]]].
        exists t. rewrite S2. auto.
  Qed.

  (** ** What the replacements do to a list of names *)
  Definition list_step (n id : string) (l : list string) : list string := if mem n l then replace_first n id l else l.
  Lemma list_step_none n id l : ~ In n l -> list_step n id l = l.
  Proof. intros N. unfold list_step. apply mem_false in N. rewrite N. reflexivity. Qed.
  Lemma list_step_In n id l x : In x (list_step n id l) -> In x l \/ x = id.
  Proof.
    unfold list_step. destruct (mem n l); [|auto]. induction l as [|y l IH]; cbn [replace_first]; [auto|]. destruct (String.eqb y n); intros [<-|I]; cbn [In]; auto. destruct (IH I); auto.
  Qed.
  Lemma list_step_count n id l x : id <> x -> count_occ string_dec (list_step n id l) x = count_occ string_dec l x - (if string_dec n x then 1 else 0).
  Proof.
    intros D. unfold list_step. destruct (mem n l) eqn:M.
    - apply mem_In in M. induction l as [|y l IH]; [destruct M|]. cbn [replace_first count_occ]. destruct (String.eqb_spec y n) as [->|N].
      + cbn [count_occ]. destruct (string_dec id x); [congruence|]. destruct (string_dec n x); cbn; lia.
      + destruct M as [M|M]; [congruence|]. cbn [count_occ]. specialize (IH M). destruct (string_dec y x) as [->|]; [|exact IH]. rewrite IH. destruct (string_dec n x); [congruence | lia].
    - apply mem_false in M. destruct (string_dec n x) as [->|]; [|lia]. apply (count_occ_not_In string_dec) in M. lia.
  Qed.
  Definition run (t : list (string * mfld)) (l : list string) : list string := fold_left (fun l e => list_step (fst e) (fl_id (snd e)) l) t l.
  Lemma steps_lists ns t q r : steps ns t q r -> q_metrics r = run t (q_metrics q) /\ q_dims r = run t (q_dims q).
  Proof.
    induction 1 as [q|n f b t q q1 r RM _ IH]; [split; reflexivity|]. unfold replace_mapped in RM. destruct (mem n (n_all ns)); [|discriminate]. injection RM as <-. exact IH.
  Qed.
  Lemma run_kept t l : (forall x, In x l -> ~ In x (map fst t)) -> run t l = l.
  Proof.
    intros H. unfold run. revert H. induction t as [|[n f] t IH]; intros H; [reflexivity|]. cbn [fold_left fst snd]. rewrite list_step_none by (intros I; apply (H n I); left; reflexivity).
    apply IH. intros x I K. apply (H x I). right. exact K.
  Qed.
  Lemma run_In t x : forall l, In x (run t l) -> In x l \/ exists n f, In (n, f) t /\ x = fl_id f.
  Proof.
    induction t as [|[n f] t IH]; intros l I; [left; exact I|]. unfold run in I. cbn [fold_left fst snd] in I. destruct (IH _ I) as [K|[n' [f' [K E]]]].
    - destruct (list_step_In _ _ _ _ K) as [L|L]; [left; exact L | right; exists n, f; split; [left; reflexivity | exact L]].
    - right. exists n', f'. split; [right; exact K | exact E].
  Qed.
  Lemma run_count x : forall t l, (forall n f, In (n, f) t -> fl_id f <> x) -> count_occ string_dec (run t l) x = count_occ string_dec l x - count_occ string_dec (map fst t) x.
  Proof.
    induction t as [|[n f] t IH]; intros l H; [cbn; lia|]. unfold run. cbn [fold_left fst snd map count_occ]. fold (run t (list_step n (fl_id f) l)). rewrite IH by (intros k g I; apply (H k g); right; exact I).
    rewrite list_step_count by (apply (H n f); left; reflexivity). destruct (string_dec n x); lia.
  Qed.
End Trace.

(** * Clauses along the replacements *)
Section Clauses.
  Variable R : Type.
  Variable hg : R -> bool.
  Variable get_field : string -> res mfld.
  Variable get_mapped : string -> option mapping.
  Variable special : string -> bool.
  Variable n_measures : string -> res nat.
  Variable enum : list string -> list string.
  Variable idents : string -> list string.
  Notation cfields := (clause_fields hg idents).
  Notation resolve := (resolve hg get_field get_mapped special n_measures enum idents).
  Definition crun (w : list string) (t : list (string * mfld)) (c : clause R) : clause R :=
    fold_left (fun c e => if mem (fst e) w then replace_clause (fst e) (fl_id (snd e)) c else c) t c.
  Lemma steps_clauses ns t q r : steps R ns t q r -> q_where r = crun (n_where ns) t (q_where q) /\ q_having r = crun (n_having ns) t (q_having q) /\ q_order r = crun (n_order ns) t (q_order q).
  Proof.
    induction 1 as [q|n f b t q q1 r RM _ IH]; [repeat split|]. unfold replace_mapped in RM. destruct (mem n (n_all ns)); [|discriminate]. injection RM as <-. exact IH.
  Qed.
  Lemma crun_none w t c : (forall x, In x w -> ~ In x (map fst t)) -> crun w t c = c.
  Proof.
    intros H. unfold crun. revert H. induction t as [|[n f] t IH]; intros H; [reflexivity|]. cbn [fold_left fst snd]. destruct (mem n w) eqn:M; [apply mem_In in M; exfalso; apply (H n M); left; reflexivity|].
    apply IH. intros x I K. apply (H x I). right. exact K.
  Qed.
  Definition pick (t : list (string * mfld)) (x : string) : string := match assoc x t with Some f => fl_id f | None => x end.
  Definition picked (w : list string) (t : list (string * mfld)) (x : string) : string := if mem x w then pick t x else x.
  Lemma renamed_clause_twice s u (c : clause R) : renamed_clause s (renamed_clause u c) = renamed_clause (fun x => s (u x)) c.
  Proof. destruct c as [t| |l]; [reflexivity|reflexivity|]. cbn [renamed_clause]. rewrite map_map. f_equal. apply map_ext. intros o. apply renamed_twice. Qed.
  Lemma renamed_clause_ext s u (c : clause R) : (forall x, s x = u x) -> renamed_clause s c = renamed_clause u c.
  Proof. intros H. destruct c as [t| |l]; [reflexivity|reflexivity|]. cbn [renamed_clause]. f_equal. apply map_ext. intros o. apply renamed_ext. exact H. Qed.
  Lemma crun_list w : forall t c, (match c with CText _ => False | _ => True end) -> (forall n f, In (n, f) t -> ~ In (fl_id f) (map fst t)) -> NoDup (map fst t) -> crun w t c = renamed_clause (picked w t) c.
  Proof.
    induction t as [|[n f] t IH]; intros c NT ID ND.
    - unfold crun. cbn [fold_left]. transitivity (renamed_clause (fun x => x) c); [destruct c as [t| |l]; [reflexivity|reflexivity|]; cbn [renamed_clause]; f_equal; rewrite <- (map_id l) at 1; apply map_ext; intros o; symmetry; apply renamed_id|].
      apply renamed_clause_ext. intros x. unfold picked, pick. cbn [assoc]. destruct (mem x w); reflexivity.
    - cbn [map fst] in ND. inversion ND as [|? ? N1 N2]; subst. assert (ID' : forall k g, In (k, g) t -> ~ In (fl_id g) (map fst t)) by (intros k g I K; apply (ID k g (or_intror I)); right; exact K).
      unfold crun. cbn [fold_left fst snd]. fold (crun w t (if mem n w then replace_clause n (fl_id f) c else c)). rewrite IH; [|destruct c; destruct (mem n w); exact NT | exact ID' | exact N2].
      assert (S1 : (if mem n w then replace_clause n (fl_id f) c else c) = renamed_clause (fun x => if mem n w then sub1 n (fl_id f) x else x) c).
      { destruct c as [tx| |l]; [destruct NT | destruct (mem n w); reflexivity |]. destruct (mem n w); cbn [replace_clause renamed_clause]; f_equal; [apply map_ext; intros o; apply replace_renamed | rewrite <- (map_id l) at 1; apply map_ext; intros o; symmetry; apply renamed_id]. }
      rewrite S1, renamed_clause_twice. apply renamed_clause_ext. intros x. unfold picked, pick. cbn [assoc].
      assert (FX : assoc (fl_id f) t = None). { apply assoc_None. intros K. apply (ID n f (or_introl eq_refl)). right. exact K. }
      unfold sub1. destruct (String.eqb_spec x n) as [->|D].
      + destruct (mem n w) eqn:M; [|rewrite M; reflexivity]. rewrite FX. destruct (mem (fl_id f) w); reflexivity.
      + destruct (mem n w); reflexivity.
  Qed.
  Lemma renamed_plain s (c : clause R) w : plain_clause R c -> cfields c = Ok w -> cfields (renamed_clause s c) = Ok (map s w).
  Proof.
    destruct c as [t| |l]; cbn [plain_clause renamed_clause]; [intros [] | intros _ E; injection E as <-; reflexivity|]. intros F E. cbn [clause_fields] in *.
    assert (X : forall o : robj R, regular R o -> leaves (renamed s o) = map (renamed s) (leaves o)).
    { clear. induction o as [f r|f cs r IH] using robj_ind'; [intros _; destruct f; reflexivity|]. destruct f as [x|]; [intros []|]. cbn [renamed leaves]. rewrite regular_group. intros F.
      induction cs as [|c cs IHc]; [reflexivity|]. inversion IH; inversion F; subst. cbn [map flat_map]. rewrite map_app, <- IHc by assumption. f_equal. auto. }
    assert (Y : flat_map leaves (map (renamed s) l) = map (renamed s) (flat_map leaves l)).
    { clear E. induction l as [|o l IH]; [reflexivity|]. inversion F; subst. cbn [map flat_map]. rewrite map_app, IH by assumption. f_equal. apply X. assumption. }
    rewrite Y. assert (Z : forall x, In x (flat_map leaves l) -> exists f r, x = @RDict R f None r). { intros x I. apply in_flat_map in I. destruct I as [o [_ I]]. eapply leaves_leaf. exact I. }
    clear Y X F. revert w E. induction (flat_map leaves l) as [|x m IH]; intros w E; [injection E as <-; reflexivity|]. cbn [map concatM] in *. destruct (Z x (or_introl eq_refl)) as [f [r ->]].
    apply bind_ok in E. destruct E as [a [EA E]]. apply bind_ok in E. destruct E as [b [EB E]]. injection E as <-. rewrite (IH (fun y I => Z y (or_intror I)) b EB).
    destruct f as [x|]; cbn [renamed leaf_name] in *; destruct (hg r); try discriminate; injection EA as <-; cbn [bind]; rewrite ?map_app; reflexivity.
  Qed.

  (** ** The names left in the lists are looked at again *)
  Lemma run_keeps x : forall t l, In x l -> ~ In x (map fst t) -> In x (run t l).
  Proof.
    induction t as [|[n f] t IH]; intros l I N; [exact I|]. unfold run. cbn [fold_left fst snd]. apply IH; [|intros K; apply N; right; exact K].
    unfold list_step. destruct (mem n l); [|exact I]. induction l as [|y l IHl]; [destruct I|]. cbn [replace_first]. destruct (String.eqb_spec y n) as [->|D]; destruct I as [<-|I]; cbn [In]; auto. exfalso. apply N. left. reflexivity.
  Qed.
  Lemma look_up_ok l : forall ml o, (forall n, In n l -> get_mapped n <> None \/ exists f, get_field n = Ok f) -> exists p, look_up get_field get_mapped (map (fun n => (true, n)) l) ml o = Ok p.
  Proof.
    induction l as [|n l IH]; intros ml o H; [eexists; reflexivity|]. cbn [map look_up]. assert (H' : forall k, In k l -> get_mapped k <> None \/ exists f, get_field k = Ok f) by (intros k I; apply H; right; exact I).
    destruct (get_mapped n) as [m|] eqn:G; [apply IH; exact H'|]. destruct (H n (or_introl eq_refl)) as [K|[f F]]; [congruence|]. rewrite F. cbn [bind]. apply IH. exact H'.
  Qed.
  Lemma determine_first m J U f pre x post : (forall y, In y (mp_fields m) -> exists g, get_field y = Ok g) -> mp_fields m = pre ++ x :: post -> get_field x = Ok f -> shares (fl_graphs f) J ->
    (forall y g, In y pre -> get_field y = Ok g -> ~ shares (fl_graphs g) J) -> determine get_field m J U = Ok f.
  Proof.
    intros L EQ F SH PR. unfold determine. rewrite det_eq by exact L. cbn [app]. rewrite EQ, flat_map_app. cbn [flat_map].
    assert (P0 : flat_map (gate get_field J) pre = []).
    { clear - PR. induction pre as [|y pre IH]; [reflexivity|]. cbn [flat_map]. rewrite IH by (intros z g I; apply PR; right; exact I). rewrite app_nil_r. unfold gate.
      destruct (get_field y) as [g|] eqn:Y; [|reflexivity]. specialize (PR y g (or_introl eq_refl) Y). apply meets_false in PR. rewrite PR. reflexivity. }
    rewrite P0. unfold gate at 1. rewrite F. apply meets_spec in SH. rewrite SH. reflexivity.
  Qed.
  Lemma chosen_all ns o J U : forall ml (q r : query R), (forall n m b, In (n, (m, b)) ml -> b = true /\ special (mp_name m) = false) ->
    replace_all get_field special n_measures enum ns o J U ml q = Ok r ->
    exists t, steps R ns t q r /\ q_forced r = q_forced q /\ Forall2 (fun e c => fst e = fst c /\ determine get_field (fst (snd e)) J U = Ok (snd c)) ml t.
  Proof.
    induction ml as [|[n [m b]] ml IH]; intros q r T E; cbn [replace_all] in E; [injection E as <-; exists []; split; [constructor|]; split; [reflexivity | constructor]|].
    destruct (T n m b (or_introl eq_refl)) as [-> SP]. apply bind_ok in E. destruct E as [[f b] [RE E]]. apply bind_ok in E. destruct E as [q1 [RM E]]. cbn [fst snd] in *.
    unfold replacement in RE. rewrite SP in RE. assert (RE' : (r <- determine get_field m J U ;; Ok (r, false)) = Ok (f, b)) by (destruct (q_metrics q); exact RE). clear RE. apply bind_ok in RE'. destruct RE' as [f' [D K]]. injection K as <- <-.
    destruct (IH q1 r) as [t [S1 [S2 S3]]]; [intros k m' b' I; apply (T k m'); right; exact I | exact E |]. exists ((n, f') :: t). split; [apply (steps_cons R ns n f' false t q q1 r RM S1)|].
    split; [rewrite S2; unfold replace_mapped in RM; destruct (mem n (n_all ns)); [|discriminate]; injection RM as <-; cbn; apply orb_false_r|]. constructor; [split; [reflexivity | exact D] | exact S3].
  Qed.
  Lemma chosen_ok ns o J U : forall ml (q : query R), (forall n m b, In (n, (m, b)) ml -> b = true /\ special (mp_name m) = false /\ In n (n_all ns) /\ exists f, determine get_field m J U = Ok f) ->
    exists r, replace_all get_field special n_measures enum ns o J U ml q = Ok r.
  Proof.
    induction ml as [|[n [m b]] ml IH]; intros q T; [eexists; reflexivity|]. cbn [replace_all]. destruct (T n m b (or_introl eq_refl)) as [-> [SP [IN [f D]]]].
    assert (RE : replacement get_field special n_measures enum o J U m q = Ok (f, false)) by (unfold replacement; rewrite SP, D; destruct (q_metrics q); reflexivity). rewrite RE. cbn [bind fst snd]. unfold replace_mapped. apply mem_In in IN. rewrite IN. cbn [bind].
    apply IH. intros k m' b' I. apply (T k m' b'). right. exact I.
  Qed.
  Lemma usable_ok l : l <> [] -> exists u, usable l = Ok u.
  Proof. destruct l as [|[k g] l]; [congruence | eexists; reflexivity]. Qed.

  Hypothesis ids : forall x f, get_field x = Ok f -> get_mapped (fl_id f) = None /\ get_field (fl_id f) = Ok f.
  (** Asking with the replaced lists again chooses the same fields for the names in the clauses *)
  Lemma again_mapped m d W h o r w hn on g :
    plain_clause R W -> plain_clause R h -> plain_clause R o -> cfields W = Ok w -> cfields h = Ok hn -> cfields o = Ok on -> NoDup m -> NoDup d ->
    let all := m ++ d ++ w ++ hn ++ on in
    (forall x mp, In x all -> get_mapped x = Some mp -> special (mp_name mp) = false) -> (exists z, In z all /\ get_mapped z = None) ->
    resolve [] (Query m d W h o false) = Ok r ->
    contains "merged_result" g = false ->
    (forall w' h' o' x f, cfields (q_where r) = Ok w' -> cfields (q_having r) = Ok h' -> cfields (q_order r) = Ok o' -> In x (q_metrics r ++ q_dims r ++ w' ++ h' ++ o') -> get_field x = Ok f -> In g (fl_graphs f)) ->
    resolve [] (Query (q_metrics r) (q_dims r) W h o false) = Ok r.
  Proof.
    intros PW PH PO CW CH CO NM ND all SP [z [IZ GZ]] E GM GC. pose proof E as E0. unfold Mapping_Model.resolve in E. cbn [q_where q_having q_order q_metrics q_dims] in E. rewrite CW, CH, CO in E. cbn [bind] in E. cbn zeta in E. cbn [filter map] in E. rewrite app_nil_r in E. fold all in E.
    apply bind_ok in E. destruct E as [[ml objs] [LU E]].
    destruct (look_up_spec get_field get_mapped special n_measures enum idents _ _ _ _ _ LU) as [A1 [A2 [A3 _]]]; [constructor | discriminate | discriminate |].
    destruct (look_up_true get_field get_mapped _ _ _ _ _ (fun n m b (K : assoc n [] = Some (m, b)) => ltac:(discriminate)) LU) as [T [B2 _]].
    assert (OB : objs <> []). { pose proof (B2 z IZ) as K. rewrite GZ in K. destruct K as [f [_ K]]. intros Q. rewrite Q in K. discriminate. }
    assert (ML : forall n mp b, In (n, (mp, b)) ml -> b = true /\ get_mapped n = Some mp /\ In n all).
    { intros n mp b I. pose proof (in_assoc_nodup ml n (mp, b) A1 I) as K. destruct (A3 n mp b K) as [G [B|B]]; [discriminate|]. apply in_map_iff in B. destruct B as [y [B IY]]. injection B as <- <-. auto. }
    (* the run, as a list of choices *)
    destruct (usable_ok (map (fun e : string * mfld => (fst e, fl_graphs (snd e))) objs)) as [u US]; [destruct objs; [congruence | discriminate]|].
    assert (RUN : exists t, steps R (Names w hn on all) t (Query m d W h o false) r /\ q_forced r = false /\ Forall2 (fun e c => fst e = fst c /\ determine get_field (fst (snd e)) (joinable_of u) u = Ok (snd c)) ml t).
    { destruct ml as [|e0 ml0] eqn:EML; [injection E as <-; exists []; split; [constructor|]; split; [reflexivity | constructor]|]. rewrite <- EML in *. destruct objs as [|o0 objs0] eqn:EO; [congruence|]. rewrite <- EO in *.
      rewrite US in E. cbn [bind] in E. apply bind_ok in E. destruct E as [t0 [_ E]].
      assert (TT : forall n mp b, In (n, (mp, b)) ml -> b = true /\ special (mp_name mp) = false) by (intros n mp b I; destruct (ML n mp b I) as [-> [G IA]]; split; [reflexivity | exact (SP n mp IA G)]).
      destruct (chosen_all _ _ _ _ _ _ _ TT E) as [t [S1 [S2 S3]]]. exists t. auto. }
    destruct RUN as [t [ST [FO F2]]].
    assert (KEYS : map fst t = map fst ml). { clear - F2. induction F2 as [|e c ml t [K _] _ IH]; [reflexivity|]. cbn [map]. rewrite IH, K. reflexivity. }
    assert (CHO : forall n f, In (n, f) t -> exists mp, get_mapped n = Some mp /\ In n all /\ determine get_field mp (joinable_of u) u = Ok f).
    { intros n f I. assert (K : exists mp b, In (n, (mp, b)) ml /\ determine get_field mp (joinable_of u) u = Ok f).
      { clear - F2 I. induction F2 as [|e c ml t [K1 K2] _ IH]; [destruct I|]. destruct I as [->|I]; [destruct e as [n' [mp b]]; cbn in *; subst n'; exists mp, b; split; [left; reflexivity | exact K2]|]. destruct (IH I) as [mp [b [J K]]]. exists mp, b. split; [right; exact J | exact K]. }
      destruct K as [mp [b [K D]]]. destruct (ML n mp b K) as [_ [G IA]]. exists mp. auto. }
    assert (HAS : forall n, In n all -> get_mapped n <> None -> exists f, In (n, f) t).
    { intros n I G. pose proof (B2 n I) as K. destruct (get_mapped n) as [mp|]; [|congruence]. apply assoc_In in K. assert (Q : In n (map fst t)) by (rewrite KEYS; apply in_map_iff; exists (n, (mp, true)); auto).
      apply in_map_iff in Q. destruct Q as [[n' f] [Q Q']]. cbn in Q. subst n'. exists f. exact Q'. }
    assert (NDT : NoDup (map fst t)) by (rewrite KEYS; exact A1).
    assert (IDT : forall n f, In (n, f) t -> get_mapped (fl_id f) = None /\ get_field (fl_id f) = Ok f).
    { intros n f I. destruct (CHO n f I) as [mp [_ [_ D]]]. apply determine_got in D. destruct D as [x [_ X]]. exact (ids x f X). }
    assert (MT : forall x, In x (map fst t) -> get_mapped x <> None).
    { intros x I. apply in_map_iff in I. destruct I as [[n f] [<- I]]. destruct (CHO n f I) as [mp [G _]]. cbn. congruence. }
    assert (IDN : forall n f, In (n, f) t -> ~ In (fl_id f) (map fst t)) by (intros n f I K; apply (MT _ K); apply (IDT n f I)).
    destruct (steps_lists _ _ _ _ _ ST) as [LM LD]. destruct (steps_clauses _ _ _ _ ST) as [LW [LH LO]]. cbn [n_where n_having n_order q_metrics q_dims q_where q_having q_order] in *.
    assert (NTX : forall c : clause R, plain_clause R c -> match c with CText _ => False | _ => True end) by (intros [tx| |l] P; [exact P | exact I | exact I]).
    rewrite (crun_list w t W (NTX W PW) IDN NDT) in LW. rewrite (crun_list hn t h (NTX h PH) IDN NDT) in LH. rewrite (crun_list on t o (NTX o PO) IDN NDT) in LO.
    (* what is left in the lists *)
    assert (LEFT : forall l x, NoDup l -> (forall y, In y l -> In y all) -> In x (run t l) -> get_mapped x = None /\ exists f, get_field x = Ok f).
    { intros l x NL LA I. assert (UM : get_mapped x = None).
      { destruct (get_mapped x) as [mp|] eqn:G; [|reflexivity]. exfalso. assert (IX : In x l). { destruct (run_In _ _ _ I) as [K|[n [f [K ->]]]]; [exact K|]. destruct (IDT n f K) as [Q _]. congruence. }
        assert (C : count_occ string_dec (run t l) x = count_occ string_dec l x - count_occ string_dec (map fst t) x). { apply run_count. intros n f K Q. subst x. destruct (IDT n f K) as [Q _]. congruence. }
        destruct (HAS x (LA x IX)) as [f K]; [congruence|]. assert (Q : In x (map fst t)) by (apply in_map_iff; exists (x, f); auto).
        apply (count_occ_In string_dec) in Q. apply (count_occ_In string_dec) in I. pose proof (proj1 (NoDup_count_occ string_dec l) NL x). lia. }
      split; [exact UM|]. destruct (run_In _ _ _ I) as [K|[n [f [K ->]]]]; [|exists f; apply (IDT n f K)]. pose proof (B2 x (LA x K)) as Q. rewrite UM in Q. destruct Q as [f [F _]]. eauto. }
    assert (AM : forall y, In y m -> In y all) by (intros y I; unfold all; rewrite !in_app_iff; auto).
    assert (AD : forall y, In y d -> In y all) by (intros y I; unfold all; rewrite !in_app_iff; auto).
    assert (AC : forall y, In y (w ++ hn ++ on) -> In y all) by (intros y I; unfold all; rewrite in_app_iff, in_app_iff; auto).
    set (all2 := q_metrics r ++ q_dims r ++ w ++ hn ++ on).
    assert (OK2 : forall n, In n all2 -> get_mapped n <> None \/ exists f, get_field n = Ok f).
    { intros n I. unfold all2 in I. rewrite in_app_iff, in_app_iff in I. destruct I as [I|[I|I]].
      - right. rewrite LM in I. exact (proj2 (LEFT m n NM AM I)).
      - right. rewrite LD in I. exact (proj2 (LEFT d n ND AD I)).
      - pose proof (B2 n (AC n I)) as Q. destruct (get_mapped n); [left; discriminate | right; destruct Q as [f [F _]]; eauto]. }
    destruct (look_up_ok all2 [] [] OK2) as [[ml2 objs2] LU2].
    unfold Mapping_Model.resolve. cbn [q_where q_having q_order q_metrics q_dims]. rewrite CW, CH, CO. cbn [bind]. cbn zeta. cbn [filter map]. rewrite app_nil_r. fold all2. rewrite LU2. cbn [bind].
    destruct (look_up_spec get_field get_mapped special n_measures enum idents _ _ _ _ _ LU2) as [A1' [A2' [A3' _]]]; [constructor | discriminate | discriminate |].
    destruct (look_up_true get_field get_mapped _ _ _ _ _ (fun n m b (K : assoc n [] = Some (m, b)) => ltac:(discriminate)) LU2) as [T' [B2' _]].
    assert (ML2 : forall n mp b, In (n, (mp, b)) ml2 -> b = true /\ get_mapped n = Some mp /\ In n (w ++ hn ++ on)).
    { intros n mp b I. pose proof (in_assoc_nodup ml2 n (mp, b) A1' I) as K. destruct (A3' n mp b K) as [G [B|B]]; [discriminate|]. apply in_map_iff in B. destruct B as [y [B IY]]. injection B as <- <-. split; [reflexivity|]. split; [exact G|].
      unfold all2 in IY. rewrite in_app_iff, in_app_iff in IY. destruct IY as [IY|[IY|IY]]; [| |exact IY]; exfalso.
      - rewrite LM in IY. destruct (LEFT m y NM AM IY) as [Q _]. congruence.
      - rewrite LD in IY. destruct (LEFT d y ND AD IY) as [Q _]. congruence. }
    assert (KEEP : forall y, In y all -> get_mapped y = None -> In y all2).
    { intros y I G. assert (NT : ~ In y (map fst t)) by (intros Q; apply (MT y Q G)). unfold all, all2 in *. rewrite in_app_iff, in_app_iff in *. rewrite LM, LD. destruct I as [I|[I|I]]; [left | right; left | right; right]; [apply run_keeps; assumption | apply run_keeps; assumption | exact I]. }
    assert (OB2 : objs2 <> []). { pose proof (B2' z (KEEP z IZ GZ)) as K. rewrite GZ in K. destruct K as [f [_ K]]. intros Q. rewrite Q in K. discriminate. }
    (* the names of the answer *)
    assert (WR : cfields (q_where r) = Ok (map (picked w t) w)) by (rewrite LW; apply renamed_plain; assumption).
    assert (HR : cfields (q_having r) = Ok (map (picked hn t) hn)) by (rewrite LH; apply renamed_plain; assumption).
    assert (OR : cfields (q_order r) = Ok (map (picked on t) on)) by (rewrite LO; apply renamed_plain; assumption).
    assert (PK : forall l y f, In y l -> In (y, f) t -> In (fl_id f) (map (picked l t) l)).
    { intros l y f I K. apply in_map_iff. exists y. split; [|exact I]. unfold picked, pick. apply mem_In in I. rewrite I, (in_assoc_nodup t y f NDT K). reflexivity. }
    assert (PP : forall l y, In y l -> get_mapped y = None -> In y (map (picked l t) l)).
    { intros l y I G. apply in_map_iff. exists y. split; [|exact I]. unfold picked, pick. destruct (mem y l); [|reflexivity]. destruct (assoc y t) as [f|] eqn:Q; [|reflexivity]. apply assoc_In in Q. exfalso. apply (MT y); [apply in_map_iff; exists (y, f); auto | exact G]. }
    assert (GR : forall x f, In x (q_metrics r ++ q_dims r ++ map (picked w t) w ++ map (picked hn t) hn ++ map (picked on t) on) -> get_field x = Ok f -> In g (fl_graphs f)).
    { intros x f. exact (GC _ _ _ x f WR HR OR). }
    assert (GA : forall x f, In (x, f) objs2 -> In g (fl_graphs f)).
    { intros x f I. assert (X : exists f', assoc x objs2 = Some f').
      { destruct (assoc x objs2) as [f'|] eqn:Q; [eauto|]. apply assoc_None in Q. exfalso. apply Q. apply in_map_iff. exists (x, f). auto. }
      assert (SRC : In x all2 /\ get_mapped x = None /\ get_field x = Ok f).
      { clear - LU2 I. assert (H : forall l ml o ml' o', look_up get_field get_mapped (map (fun n => (true, n)) l) ml o = Ok (ml', o') -> forall x f, In (x, f) o' -> In (x, f) o \/ In x l /\ get_mapped x = None /\ get_field x = Ok f).
        { clear. induction l as [|n l IH]; intros ml o ml' o' E x f I; cbn [map look_up] in E; [injection E as <- <-; auto|]. destruct (get_mapped n) as [mp|] eqn:G.
          - destruct (IH _ _ _ _ E x f I) as [K|[K1 K2]]; [auto | right; split; [right; exact K1 | exact K2]].
          - apply bind_ok in E. destruct E as [f0 [F0 E]]. destruct (IH _ _ _ _ E x f I) as [K|[K1 K2]]; [|right; split; [right; exact K1 | exact K2]].
            assert (P : forall (d : list (string * mfld)), In (x, f) (put n f0 d) -> In (x, f) d \/ x = n /\ f = f0).
            { clear. induction d as [|[k v] d IHd]; cbn [put]; [intros [Q|[]]; injection Q as <- <-; auto|]. destruct (String.eqb_spec n k) as [->|]; intros [Q|Q]; cbn [In]; [injection Q as <- <-; auto | auto | auto | destruct (IHd Q); auto]. }
            destruct (P o K) as [Q|[-> ->]]; [auto|]. right. split; [left; reflexivity|]. auto. }
        destruct (H _ _ _ _ _ LU2 x f I) as [[]|K]. exact K. }
      destruct SRC as [IX [GX FX]]. apply (GR x f); [|exact FX]. unfold all2 in IX. rewrite !in_app_iff in IX. rewrite !in_app_iff.
      destruct IX as [IX|[IX|[IX|[IX|IX]]]]; [left; exact IX | right; left; exact IX | right; right; left | right; right; right; left | right; right; right; right]; apply PP; assumption. }
    destruct (usable_ok (map (fun e : string * mfld => (fst e, fl_graphs (snd e))) objs2)) as [u2 US2]; [destruct objs2; [congruence | discriminate]|].
    assert (GU : In g u2). { apply (usable_spec _ _ US2). intros e I. apply in_map_iff in I. destruct I as [[x f] [<- I]]. cbn. exact (GA x f I). }
    assert (SUB : forall y, In y u2 -> In y u).
    { intros y I. apply (usable_spec _ _ US). intros e K. apply in_map_iff in K. destruct K as [[x f] [<- K]]. cbn [snd fst].
      assert (NDO : forall l ml o ml' o', NoDup (map fst o) -> look_up get_field get_mapped l ml o = Ok (ml', o') -> NoDup (map fst o')).
      { clear - special n_measures enum idents get_field get_mapped. induction l as [|[b n] l IH]; intros ml o ml' o' N E; cbn [look_up] in E; [injection E as <- <-; exact N|]. destruct (get_mapped n) as [mp|]; [eapply IH; eassumption|]. apply bind_ok in E. destruct E as [f0 [_ E]]. eapply IH; [|exact E]. exact (put_NoDup get_field get_mapped special n_measures enum idents _ _ _ N). }
      assert (NO : NoDup (map fst objs)) by (refine (NDO _ _ _ _ _ _ LU); constructor).
      pose proof (in_assoc_nodup objs x f NO K) as Q. destruct (A2 x f Q) as [FX GX].
      assert (IX : In x all).
      { clear - LU K special n_measures enum idents. assert (H : forall l ml o ml' o', look_up get_field get_mapped (map (fun n => (true, n)) l) ml o = Ok (ml', o') -> forall x, In x (map fst o') -> In x (map fst o) \/ In x l).
        { clear - special n_measures enum idents get_field get_mapped. induction l as [|n l IH]; intros ml o ml' o' E x I; cbn [map look_up] in E; [injection E as <- <-; auto|]. destruct (get_mapped n) as [mp|]; [destruct (IH _ _ _ _ E x I); cbn [In]; auto|].
          apply bind_ok in E. destruct E as [f0 [_ E]]. destruct (IH _ _ _ _ E x I) as [Q|Q]; [|cbn [In]; auto]. apply (put_keys get_field get_mapped special n_measures enum idents) in Q. destruct Q as [->|Q]; cbn [In]; auto. }
        destruct (H _ _ _ _ _ LU x) as [[]|Q]; [apply in_map_iff; exists (x, f); auto | exact Q]. }
      pose proof (B2' x (KEEP x IX GX)) as Z. rewrite GX in Z. destruct Z as [f' [F' Z]]. assert (f' = f) by congruence. subst f'. apply assoc_In in Z.
      apply (proj1 (usable_spec _ _ US2 y) I (x, fl_graphs f)). apply in_map_iff. exists (x, f). auto. }
    assert (JG : In g (joinable_of u2)) by (apply joinable_In; auto).
    assert (DET : forall n f, In n (w ++ hn ++ on) -> In (n, f) t -> exists mp, get_mapped n = Some mp /\ determine get_field mp (joinable_of u2) u2 = Ok f).
    { intros n f IN I. destruct (CHO n f I) as [mp [G [_ D]]]. exists mp. split; [exact G|]. destruct (IDT n f I) as [_ FI].
      assert (GF : In g (fl_graphs f)).
      { apply (GR (fl_id f) f); [|exact FI]. rewrite !in_app_iff in *. destruct IN as [IN|[IN|IN]]; [right; right; left | right; right; right; left | right; right; right; right]; eapply PK; eassumption. }
      assert (GJ : In g (joinable_of u)) by (apply joinable_In; split; [apply SUB; exact GU | exact GM]).
      pose proof D as D'. unfold determine in D'. pose proof (det_looked_up _ _ _ _ _ _ _ D') as L. clear D'.
      destruct (C30_choice get_field mp (joinable_of u) u f D) as [pre [x [post [EQ [FX CH']]]]]. destruct CH' as [[SH PR]|[_ [NJ _]]].
      - apply (determine_first mp _ _ f pre x post L EQ FX); [exists g; auto|]. intros y gy IY FY [k [K1 K2]]. apply (PR y gy IY FY). exists k. split; [exact K1|]. apply joinable_In in K2. apply joinable_In. split; [apply SUB; tauto | tauto].
      - exfalso. apply (NJ x f); [rewrite EQ; apply in_app_iff; right; left; reflexivity | exact FX | exists g; auto]. }
    assert (FIN : forall t2 r2, steps R (Names w hn on all2) t2 (Query (q_metrics r) (q_dims r) W h o false) r2 -> q_forced r2 = false -> NoDup (map fst t2) -> (forall n f, In (n, f) t2 -> In (n, f) t) -> (forall n, In n (w ++ hn ++ on) -> get_mapped n <> None -> In n (map fst t2)) -> (forall n, In n (map fst t2) -> In n (w ++ hn ++ on)) -> r2 = r).
    { intros t2 r2 ST2 F02 ND2 SUBT HAS2 IN2. destruct (steps_lists _ _ _ _ _ ST2) as [M2 D2]. destruct (steps_clauses _ _ _ _ ST2) as [W2 [H2 O2]]. cbn [n_where n_having n_order q_metrics q_dims q_where q_having q_order] in *.
      assert (ID2 : forall n f, In (n, f) t2 -> ~ In (fl_id f) (map fst t2)).
      { intros n f I K. apply in_map_iff in K. destruct K as [[n' f'] [Q K]]. cbn in Q. apply (IDN n f (SUBT n f I)). apply in_map_iff. exists (n', f'). split; [exact Q | apply SUBT; exact K]. }
      assert (KT : forall x, In x (map fst t2) -> get_mapped x <> None). { intros x K. apply in_map_iff in K. destruct K as [[n' f'] [<- K]]. apply MT. apply in_map_iff. exists (n', f'). auto. }
      rewrite run_kept in M2 by (intros x I K; apply (KT x K); rewrite LM in I; exact (proj1 (LEFT m x NM AM I))).
      rewrite run_kept in D2 by (intros x I K; apply (KT x K); rewrite LD in I; exact (proj1 (LEFT d x ND AD I))).
      assert (SAME : forall l x, (forall y, In y l -> In y (w ++ hn ++ on)) -> picked l t2 x = picked l t x).
      { intros l x LL. unfold picked, pick. destruct (mem x l) eqn:MX; [|reflexivity]. apply mem_In in MX. destruct (assoc x t2) as [f|] eqn:Q2.
        - apply assoc_In in Q2. rewrite (in_assoc_nodup t x f NDT (SUBT x f Q2)). reflexivity.
        - destruct (assoc x t) as [f|] eqn:Q1; [|reflexivity]. exfalso. apply assoc_In in Q1. apply assoc_None in Q2. apply Q2. apply HAS2; [apply LL; exact MX|]. apply MT. apply in_map_iff. exists (x, f). auto. }
      rewrite (crun_list w t2 W (NTX W PW) ID2 ND2) in W2. rewrite (crun_list hn t2 h (NTX h PH) ID2 ND2) in H2. rewrite (crun_list on t2 o (NTX o PO) ID2 ND2) in O2.
      rewrite (renamed_clause_ext (picked w t2) (picked w t)) in W2 by (intros x; apply SAME; intros y I; rewrite !in_app_iff; auto).
      rewrite (renamed_clause_ext (picked hn t2) (picked hn t)) in H2 by (intros x; apply SAME; intros y I; rewrite !in_app_iff; auto).
      rewrite (renamed_clause_ext (picked on t2) (picked on t)) in O2 by (intros x; apply SAME; intros y I; rewrite !in_app_iff; auto).
      destruct r as [rm rd rw rh ro rf], r2 as [rm2 rd2 rw2 rh2 ro2 rf2]. cbn in *. subst. congruence. }
    destruct ml2 as [|e0 ml0] eqn:EML2.
    - f_equal. apply (FIN [] _ (steps_nil R _ _) eq_refl); [constructor | intros n f [] | | intros n []]. intros n I G. exfalso.
      assert (IN2 : In n all2) by (unfold all2; rewrite in_app_iff, in_app_iff; auto). pose proof (B2' n IN2) as K. destruct (get_mapped n); [discriminate | congruence].
    - rewrite <- EML2 in *. destruct objs2 as [|o0 objs0] eqn:EO2; [congruence|]. rewrite <- EO2 in *. rewrite US2. cbn [bind].
      assert (HI : handle_invalid (map (fun e : string * mfld => (fst e, fl_graphs (snd e))) objs2) u2 = Ok tt) by (unfold handle_invalid; destruct u2; [destruct GU | reflexivity]). rewrite HI. cbn [bind].
      destruct (chosen_ok (Names w hn on all2) objs2 (joinable_of u2) u2 ml2 (Query (q_metrics r) (q_dims r) W h o false)) as [r2 E2].
      { intros n mp b I. destruct (ML2 n mp b I) as [-> [G IN]]. split; [reflexivity|]. split; [exact (SP n mp (AC n IN) G)|]. split; [cbn; unfold all2; rewrite in_app_iff, in_app_iff; auto|].
        destruct (HAS n (AC n IN)) as [f K]; [congruence|]. destruct (DET n f IN K) as [mp' [G' D]]. assert (mp' = mp) by congruence. subst mp'. eauto. }
      rewrite E2. f_equal.
      assert (TT : forall n mp b, In (n, (mp, b)) ml2 -> b = true /\ special (mp_name mp) = false) by (intros n mp b I; destruct (ML2 n mp b I) as [-> [G IN]]; split; [reflexivity | exact (SP n mp (AC n IN) G)]).
      destruct (chosen_all _ _ _ _ _ _ _ TT E2) as [t2 [S1 [S2 S3]]].
      assert (K2 : map fst t2 = map fst ml2). { clear - S3. induction S3 as [|e c ml t [K _] _ IH]; [reflexivity|]. cbn [map]. rewrite IH, K. reflexivity. }
      apply (FIN t2 r2 S1 S2); [rewrite K2; exact A1' | | | ].
      + intros n f I. assert (K : exists mp b, In (n, (mp, b)) ml2 /\ determine get_field mp (joinable_of u2) u2 = Ok f).
        { clear - S3 I. induction S3 as [|e c ml t [K1 K2] _ IH]; [destruct I|]. destruct I as [->|I]; [destruct e as [n' [mp b]]; cbn in *; subst n'; exists mp, b; split; [left; reflexivity | exact K2]|]. destruct (IH I) as [mp [b [J K]]]. exists mp, b. split; [right; exact J | exact K]. }
        destruct K as [mp [b [K D]]]. destruct (ML2 n mp b K) as [_ [G IN]]. destruct (HAS n (AC n IN)) as [f' K']; [congruence|]. destruct (DET n f' IN K') as [mp' [G' D']]. assert (mp' = mp) by congruence. subst mp'. assert (f' = f) by congruence. subst f'. exact K'.
      + intros n I G. rewrite K2. assert (IN2 : In n all2) by (unfold all2; rewrite in_app_iff, in_app_iff; auto). pose proof (B2' n IN2) as K. destruct (get_mapped n) as [mp|]; [|congruence]. apply assoc_In in K. apply in_map_iff. exists (n, (mp, true)). auto.
      + intros n I. rewrite K2 in I. apply in_map_iff in I. destruct I as [[n' [mp b]] [<- I]]. destruct (ML2 n' mp b I) as [_ [_ IN]]. exact IN.
  Qed.
End Clauses.
