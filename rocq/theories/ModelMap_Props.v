(** Specification and property theorems: C43, a model's mappings. *)
From Coq Require Import List String Bool Arith Lia.
From Verif Require Import PyBase PyStr PySort PyCounter ModelMap_Model.
Import ListNotations.
Local Open Scope string_scope.
Local Open Scope list_scope.

(** ** Specification *)
Section Spec.
  Variable get_field : string -> res mfield.
  Definition accessible (f : string) : Prop := exists ff, get_field f = Ok ff.
  Definition usable (dims_only : bool) (f : string) : Prop :=
    exists ff, get_field f = Ok ff /\ (dims_only = true -> mf_type ff <> FMeasure).
  (** f is mapped to g: they stand together in one mapping *)
  Definition mapped (dims_only : bool) (maps : mapdefs) (f g : string) : Prop :=
    exists name fs, In (name, fs) maps /\ In f fs /\ In g fs /\ f <> g /\ usable dims_only f /\ accessible g.
  (** the references of f in order, an unreadable field being skipped *)
  Definition readable (f : string) : bool := match get_field f with Ok _ => true | Err _ => false end.
  Definition usableb (dims_only : bool) (f : string) : bool :=
    match get_field f with Ok ff => negb (dims_only && ftype_eqb (mf_type ff) FMeasure) | Err _ => false end.
  Definition others (f : string) (fs : list string) : list string := filter (fun g => negb (String.eqb g f) && readable g) fs.
  Definition refs_in (dims_only : bool) (f : string) (froms fs : list string) : list string :=
    flat_map (fun f' => if String.eqb f' f && usableb dims_only f then others f fs else []) froms.
  Definition refs_spec (dims_only : bool) (maps : mapdefs) (f : string) : list string :=
    flat_map (fun nm : string * list string => refs_in dims_only f (snd nm) (snd nm)) maps.
  (** what makes a mapping acceptable *)
  Definition uniform (dims_only special : bool) (fs : list string) : Prop :=
    (forall f g ff gf, In f fs -> In g fs -> f <> g -> usable dims_only f -> get_field f = Ok ff -> get_field g = Ok gf -> mf_type gf = mf_type ff)
    /\ (special = false -> forall f ff, In f fs -> get_field f = Ok ff -> mf_type ff <> FGroup).
End Spec.
Definition refs (m : mapping) (f : string) : list string :=
  match assoc f m with Some e => map rf_field (en_refs e) | None => [] end.

Lemma ftype_eqb_eq a b : ftype_eqb a b = true <-> a = b.
Proof. destruct a, b; cbn; split; congruence. Qed.
Lemma opt_eqb_spec a b : reflect (a = b) (opt_eqb a b).
Proof. destruct a as [x|], b as [y|]; cbn; try (constructor; congruence). destruct (String.eqb_spec x y); constructor; congruence. Qed.

Section Proofs.
  Variable get_field : string -> res mfield.
  Notation usable := (usable get_field).
  Notation accessible := (accessible get_field).
  Notation usableb := (usableb get_field).
  Notation readable := (readable get_field).
  Notation others := (others get_field).
  Notation refs_in := (refs_in get_field).
  Notation refs_spec := (refs_spec get_field).
  Notation uniform := (uniform get_field).

  Lemma readable_iff f : readable f = true <-> accessible f.
  Proof. unfold ModelMap_Props.readable, ModelMap_Props.accessible. destruct (get_field f) as [x|e]; split; try discriminate; eauto. intros [y E]. discriminate. Qed.
  Lemma usableb_iff d f : usableb d f = true <-> usable d f.
  Proof.
    unfold ModelMap_Props.usableb, ModelMap_Props.usable. destruct (get_field f) as [x|e].
    - rewrite negb_true_iff. split.
      + intros H. exists x. split; auto. intros -> T. rewrite T in H. discriminate.
      + intros [y [E H]]. injection E as <-. destruct d; [|reflexivity]. cbn [andb]. destruct (ftype_eqb (mf_type x) FMeasure) eqn:T; auto. apply ftype_eqb_eq in T. now apply H in T.
    - split; [discriminate|]. intros [y [E _]]. discriminate.
  Qed.

  Lemma add_reference_refs m from ref ff sp g :
    refs (add_reference m from ref ff sp) g = refs m g ++ (if String.eqb from g then [rf_field ref] else []).
  Proof.
    unfold refs. induction m as [|[k e] m IH]; cbn [add_reference assoc].
    - rewrite (String.eqb_sym g from). destruct (String.eqb from g); reflexivity.
    - destruct (String.eqb_spec k from) as [->|N]; cbn [assoc].
      + rewrite (String.eqb_sym g from). destruct (String.eqb_spec from g) as [->|N]; [|now rewrite app_nil_r]. cbn [en_refs]. now rewrite map_app.
      + destruct (String.eqb_spec g k) as [->|N2]; [|apply IH]. destruct (String.eqb_spec from k); [congruence|now rewrite app_nil_r].
  Qed.
  Lemma to_loop_refs sp from ff tos : forall m m', to_loop get_field sp from ff tos m = Ok m' ->
    forall g, refs m' g = refs m g ++ (if String.eqb from g then others from tos else []).
  Proof.
    induction tos as [|t tos IH]; intros m m' H g; cbn [to_loop] in H.
    - injection H as <-. cbn. destruct (String.eqb from g); now rewrite app_nil_r.
    - unfold ModelMap_Props.others. cbn [filter]. unfold ModelMap_Props.readable at 1. destruct (String.eqb_spec t from) as [->|N]; cbn [negb andb].
      + now apply IH.
      + destruct (get_field t) as [tf|e] eqn:G.
        * destruct (ftype_eqb (mf_type tf) (mf_type ff)) eqn:T; [|discriminate]. rewrite (IH _ _ H g), add_reference_refs. cbn [rf_field].
          rewrite <- app_assoc. destruct (String.eqb from g); reflexivity.
        * destruct e; try discriminate. now apply IH.
  Qed.
  Lemma from_loop_refs d sp all froms : forall m m', from_loop get_field d sp all froms m = Ok m' ->
    forall g, refs m' g = refs m g ++ refs_in d g froms all.
  Proof.
    induction froms as [|f froms IH]; intros m m' H g; cbn [from_loop] in H.
    - injection H as <-. cbn. now rewrite app_nil_r.
    - unfold ModelMap_Props.refs_in. cbn [flat_map]. unfold ModelMap_Props.usableb at 1.
      destruct (get_field f) as [ff|e] eqn:G.
      + assert (EG : String.eqb f g = true -> get_field g = Ok ff) by (intros E; apply String.eqb_eq in E; congruence).
        destruct (d && ftype_eqb (mf_type ff) FMeasure) eqn:D.
        * rewrite (IH _ _ H g). f_equal. destruct (String.eqb f g) eqn:E; [|reflexivity]. rewrite (EG eq_refl), D. reflexivity.
        * destruct (ftype_eqb (mf_type ff) FGroup && negb sp); [discriminate|]. apply bind_ok in H. destruct H as [m1 [A B]].
          rewrite (IH _ _ B g), (to_loop_refs _ _ _ _ _ _ A g), <- app_assoc. f_equal. destruct (String.eqb_spec f g) as [->|N]; [|reflexivity].
          rewrite (EG eq_refl), D. reflexivity.
      + destruct e; try discriminate. rewrite (IH _ _ H g). f_equal. destruct (String.eqb_spec f g) as [->|N]; [|reflexivity]. rewrite G. reflexivity.
  Qed.
  Lemma map_loop_refs d maps : forall m m', map_loop get_field d maps m = Ok m' -> forall g, refs m' g = refs m g ++ refs_spec d maps g.
  Proof.
    induction maps as [|[n fs] maps IH]; intros m m' H g; cbn [map_loop] in H.
    - injection H as <-. cbn. now rewrite app_nil_r.
    - apply bind_ok in H. destruct H as [m1 [A B]]. rewrite (IH _ _ B g), (from_loop_refs _ _ _ _ _ _ A g), <- app_assoc. reflexivity.
  Qed.

  (** when the loops succeed *)
  Definition quiet : Prop := forall f e, get_field f = Err e -> e = AccessDenied.
  Lemma to_loop_ok sp from ff tos : quiet -> forall m,
    (forall g gf, In g tos -> g <> from -> get_field g = Ok gf -> mf_type gf = mf_type ff) -> exists m', to_loop get_field sp from ff tos m = Ok m'.
  Proof.
    intros Q. induction tos as [|t tos IH]; intros m H; cbn [to_loop]; eauto.
    assert (H' : forall g gf, In g tos -> g <> from -> get_field g = Ok gf -> mf_type gf = mf_type ff) by (intros; eapply H; eauto; now right).
    destruct (String.eqb_spec t from) as [->|N]; auto. destruct (get_field t) as [tf|e] eqn:G.
    - destruct (ftype_eqb (mf_type tf) (mf_type ff)) eqn:T; auto. assert (X : mf_type tf = mf_type ff) by (eapply H; eauto; now left). apply ftype_eqb_eq in X. congruence.
    - rewrite (Q _ _ G). auto.
  Qed.
  Lemma to_loop_types sp from ff tos : forall m m', to_loop get_field sp from ff tos m = Ok m' ->
    forall g gf, In g tos -> g <> from -> get_field g = Ok gf -> mf_type gf = mf_type ff.
  Proof.
    induction tos as [|t tos IH]; intros m m' H g gf I N G; [destruct I|]. cbn [to_loop] in H. destruct I as [->|I].
    - destruct (String.eqb_spec g from); [contradiction|]. rewrite G in H. destruct (ftype_eqb (mf_type gf) (mf_type ff)) eqn:T; [|discriminate]. now apply ftype_eqb_eq.
    - destruct (String.eqb_spec t from); [eapply IH; eauto|]. destruct (get_field t) as [tf|e].
      + destruct (ftype_eqb (mf_type tf) (mf_type ff)); [|discriminate]. eapply IH; eauto.
      + destruct e; try discriminate. eapply IH; eauto.
  Qed.
  Lemma to_loop_err sp from ff tos : quiet -> forall m e, to_loop get_field sp from ff tos m = Err e -> e = QueryError.
  Proof.
    intros Q. induction tos as [|t tos IH]; intros m e H; cbn [to_loop] in H; [discriminate|]. destruct (String.eqb t from); [eauto|].
    destruct (get_field t) as [tf|e'] eqn:G; [destruct (ftype_eqb (mf_type tf) (mf_type ff)); [eauto|congruence]|]. rewrite (Q _ _ G) in H. eauto.
  Qed.
  Lemma from_loop_err d sp all froms : quiet -> forall m e, from_loop get_field d sp all froms m = Err e -> e = QueryError.
  Proof.
    intros Q. induction froms as [|f froms IH]; intros m e H; cbn [from_loop] in H; [discriminate|].
    destruct (get_field f) as [ff|e'] eqn:G; [|rewrite (Q _ _ G) in H; eauto].
    destruct (d && ftype_eqb (mf_type ff) FMeasure); [eauto|]. destruct (ftype_eqb (mf_type ff) FGroup && negb sp); [congruence|].
    apply bind_err in H. destruct H as [H|[m1 [_ H]]]; [eapply to_loop_err; eauto|eauto].
  Qed.
  Lemma map_loop_err d maps : quiet -> forall m e, map_loop get_field d maps m = Err e -> e = QueryError.
  Proof.
    intros Q. induction maps as [|[n fs] maps IH]; intros m e H; cbn [map_loop] in H; [discriminate|].
    apply bind_err in H. destruct H as [H|[m1 [_ H]]]; [eapply from_loop_err; eauto|eauto].
  Qed.
  Definition froms_fine (d sp : bool) (all froms : list string) : Prop :=
    forall f ff, In f froms -> get_field f = Ok ff -> (d = true -> mf_type ff <> FMeasure) ->
      (forall g gf, In g all -> g <> f -> get_field g = Ok gf -> mf_type gf = mf_type ff) /\ (sp = false -> mf_type ff <> FGroup).
  Lemma from_loop_fine d sp all froms : forall m m', from_loop get_field d sp all froms m = Ok m' -> froms_fine d sp all froms.
  Proof.
    induction froms as [|f froms IH]; intros m m' H g gf I G D; [destruct I|]. cbn [from_loop] in H. destruct I as [->|I].
    - rewrite G in H. destruct (d && ftype_eqb (mf_type gf) FMeasure) eqn:E.
      + apply andb_true_iff in E. destruct E as [E1 E2]. apply ftype_eqb_eq in E2. now apply D in E1.
      + destruct (ftype_eqb (mf_type gf) FGroup && negb sp) eqn:E3; [discriminate|]. apply bind_ok in H. destruct H as [m1 [A B]]. split.
        * eapply to_loop_types; eauto.
        * intros -> T. rewrite T in E3. discriminate.
    - destruct (get_field f) as [ff|e].
      + destruct (d && ftype_eqb (mf_type ff) FMeasure); [eapply IH; eauto|]. destruct (ftype_eqb (mf_type ff) FGroup && negb sp); [discriminate|].
        apply bind_ok in H. destruct H as [m1 [A B]]. eapply IH; eauto.
      + destruct e; try discriminate. eapply IH; eauto.
  Qed.
  Lemma from_loop_ok d sp all froms : quiet -> froms_fine d sp all froms -> forall m, exists m', from_loop get_field d sp all froms m = Ok m'.
  Proof.
    intros Q. induction froms as [|f froms IH]; intros F m; cbn [from_loop]; eauto.
    assert (F' : froms_fine d sp all froms) by (intros g gf I; apply F; now right).
    destruct (get_field f) as [ff|e] eqn:G; [|rewrite (Q _ _ G); auto].
    destruct (d && ftype_eqb (mf_type ff) FMeasure) eqn:E; auto.
    destruct (F f ff (or_introl eq_refl) G) as [T1 T2].
    { intros -> T. rewrite T in E. discriminate. }
    destruct (ftype_eqb (mf_type ff) FGroup && negb sp) eqn:E2.
    - apply andb_true_iff in E2. destruct E2 as [X Y]. apply ftype_eqb_eq in X. apply negb_true_iff in Y. now apply T2 in X.
    - destruct (to_loop_ok sp f ff all Q m) as [m1 E1]; [intros; eapply T1; eauto|]. rewrite E1. cbn [bind]. auto.
  Qed.
  Lemma fine_uniform d sp fs : froms_fine d sp fs fs <-> uniform d sp fs.
  Proof.
    split.
    - intros F. split.
      + intros f g ff gf If Ig N [x [E U]] Ef Eg. assert (x = ff) as -> by congruence. eapply (proj1 (F f ff If Ef U)); eauto.
      + intros SP f ff I E T. apply (proj2 (F f ff I E ltac:(intros _; congruence)) SP T).
    - intros [U1 U2] f ff I E D. split.
      + intros g gf Ig N Eg. refine (U1 f g ff gf I Ig _ _ E Eg); [congruence|exists ff; auto].
      + intros SP. now apply (U2 SP f ff).
  Qed.

  Variable exists_field : string -> bool.
  Variable canon_dates : list (option string).
  Notation mappings := (mappings exists_field canon_dates).
  Notation get_mappings := (get_mappings get_field exists_field canon_dates).
  Notation special_fields := (special_fields exists_field canon_dates).

  Lemma add_special_spec names maps : NoDup names ->
    add_special exists_field canon_dates names maps
    = if existsb (fun n => mem n (map fst maps)) names then Err QueryError else Ok (maps ++ map (fun n => (n, special_fields n)) names).
  Proof.
    revert maps. induction names as [|n names IH]; intros maps ND; cbn [add_special existsb map]; [now rewrite app_nil_r|].
    destruct (mem n (map fst maps)) eqn:M; [reflexivity|]. cbn [orb]. inversion ND as [|? ? N1 N2]; subst. rewrite (IH _ N2).
    assert (E : existsb (fun n0 => mem n0 (map fst (maps ++ [(n, special_fields n)]))) names = existsb (fun n0 => mem n0 (map fst maps)) names).
    { clear - N1. induction names as [|k names IH]; [reflexivity|]. cbn [existsb]. rewrite IH; [|intros H; apply N1; now right]. f_equal.
      rewrite map_app. unfold mem. rewrite existsb_app. cbn [map fst existsb]. destruct (String.eqb_spec k n) as [->|D]; [exfalso; apply N1; now left|]. now rewrite !orb_false_r. }
    rewrite E. clear E. destruct (existsb (fun n0 : string => mem n0 (map fst maps)) names); [reflexivity|]. now rewrite <- app_assoc.
  Qed.
  Lemma special_NoDup : NoDup special_values.
  Proof. unfold special_values. repeat (constructor; [cbn [In]; intuition discriminate|]). constructor. Qed.

  Definition calendar : list string := ["date"; "day_of_year"; "week_of_year"; "week"; "month_of_year"; "month"; "quarter"; "year"].
  Lemma calendar_spec : special_values = calendar.
  Proof. reflexivity. Qed.

  (** The reserved names are refused; otherwise the mappings are the user's followed by one per calendar unit. *)
  Theorem C43_reserved : forall user,
    mappings user = if existsb (fun n => mem n (map fst user)) calendar then Err QueryError
                    else Ok (user ++ map (fun n => (n, special_fields n)) calendar).
  Proof. rewrite <- calendar_spec. intros user. apply add_special_spec, special_NoDup. Qed.
  (** A calendar mapping consists of the date dimensions that exist, *)
  Theorem C43_dates : forall name i,
    In i (special_fields name) <-> exists d, In (Some d) canon_dates /\ i = (d ++ "_" ++ name)%string /\ exists_field i = true.
  Proof.
    intros name i. unfold ModelMap_Model.special_fields. rewrite in_flat_map. split.
    - intros [[[d|] n] [I H]]; cbn [fst] in H; [|destruct H]. apply (most_common_In opt_eqb opt_eqb_spec) in I. destruct I as [I _]. exists d. split; [exact I|].
      cbv zeta in H. destruct (exists_field (d ++ "_" ++ name)%string) eqn:E; [|destruct H]. destruct H as [<-|[]]. auto.
    - intros [d [I [-> E]]]. exists (Some d, occ opt_eqb (Some d) canon_dates). split; [apply (most_common_In opt_eqb opt_eqb_spec); auto|]. cbn [fst]. cbv zeta. rewrite E. now left.
  Qed.
  Lemma sorted_app_split {A} (le : A -> A -> bool) l : sorted le l -> forall l1 x l2 y l3, l = l1 ++ x :: l2 ++ y :: l3 -> le x y = true.
  Proof.
    induction 1 as [|z l Hz Hl IH]; intros l1 x l2 y l3 E; [destruct l1; discriminate|]. destruct l1 as [|w l1]; cbn in E; injection E as <- E.
    - apply Hz. rewrite E. apply in_or_app. right. now left.
    - eapply IH; eauto.
  Qed.
  Lemma flat_map_split {A B} (g : A -> list B) l l1 x l2 :
    (forall a, In a l -> g a = [] \/ exists b, g a = [b]) -> flat_map g l = l1 ++ x :: l2 ->
    exists m1 a m2, l = m1 ++ a :: m2 /\ flat_map g m1 = l1 /\ g a = [x] /\ flat_map g m2 = l2.
  Proof.
    revert l1. induction l as [|a l IH]; intros l1 H E; [destruct l1; discriminate|]. cbn [flat_map] in E.
    assert (H' : forall b, In b l -> g b = [] \/ exists c, g b = [c]) by (intros; apply H; now right).
    destruct (H a (or_introl eq_refl)) as [G|[b G]]; rewrite G in E; cbn [app] in E.
    - destruct (IH _ H' E) as [m1 [c [m2 [-> [X [Y Z]]]]]]. exists (a :: m1), c, m2. repeat split; auto. cbn [flat_map]. now rewrite G.
    - destruct l1 as [|y l1]; cbn [app] in E; injection E as -> E.
      + exists [], a, l. repeat split; auto.
      + destruct (IH _ H' E) as [m1 [c [m2 [-> [X [Y Z]]]]]]. exists (a :: m1), c, m2. repeat split; auto. cbn [flat_map]. now rewrite G, X.
  Qed.
  (** the most used first: the date used by more fields never follows one used by fewer. *)
  Theorem C43_dates_order : forall name l1 a l2 b l3, special_fields name = l1 ++ a :: l2 ++ b :: l3 ->
    exists d e, a = (d ++ "_" ++ name)%string /\ b = (e ++ "_" ++ name)%string
      /\ count_occ (fun x y => match opt_eqb_spec x y with ReflectT _ p => left p | ReflectF _ p => right p end) canon_dates (Some e)
         <= count_occ (fun x y => match opt_eqb_spec x y with ReflectT _ p => left p | ReflectF _ p => right p end) canon_dates (Some d).
  Proof.
    intros name l1 a l2 b l3 H. unfold ModelMap_Model.special_fields in H.
    set (g := fun dn : option string * nat => match fst dn with None => [] | Some d => let i := (d ++ "_" ++ name)%string in if exists_field i then [i] else [] end) in H.
    assert (G : forall l c, In c l -> g c = [] \/ exists x : string, g c = [x]).
    { intros l [[d|] n] _; unfold g; cbn [fst]; cbv zeta; auto. destruct (exists_field _); eauto. }
    assert (OC : forall x, count_occ (fun x y => match opt_eqb_spec x y with ReflectT _ p => left p | ReflectF _ p => right p end) canon_dates x = occ opt_eqb x canon_dates).
    { intros x. unfold occ. generalize canon_dates as l. induction l as [|y l IH]; [reflexivity|]. cbn [count_occ filter].
      destruct (opt_eqb_spec y x) as [->|N].
      - destruct (opt_eqb_spec x x) as [_|N]; [|congruence]. cbn [List.length]. f_equal. apply IH.
      - destruct (opt_eqb_spec x y) as [->|_]; [congruence|]. apply IH. }
    destruct (flat_map_split g _ _ _ _ (G _) H) as [m1 [c [m2 [E [_ [Gc E2]]]]]].
    destruct (flat_map_split g _ _ _ _ (G _) E2) as [m3 [c' [m4 [E3 [_ [Gc' _]]]]]]. subst m2.
    pose proof (sorted_app_split _ _ (most_common_sorted opt_eqb canon_dates) _ _ _ _ _ E) as L.
    assert (C1 : In c (most_common opt_eqb canon_dates)) by (rewrite E; apply in_or_app; right; now left).
    assert (C2 : In c' (most_common opt_eqb canon_dates)) by (rewrite E; apply in_or_app; right; right; apply in_or_app; right; now left).
    destruct c as [c n], c' as [c' n']. apply (most_common_In opt_eqb opt_eqb_spec) in C1, C2. destruct C1 as [_ ->], C2 as [_ ->].
    unfold more in L. cbn [snd] in L. apply Nat.leb_le in L. unfold g in Gc, Gc'. cbn [fst] in Gc, Gc'. cbv zeta in Gc, Gc'.
    destruct c as [d|]; [|discriminate]. destruct c' as [e|]; [|discriminate].
    destruct (exists_field (d ++ "_" ++ name)%string); [|discriminate]. destruct (exists_field (e ++ "_" ++ name)%string); [|discriminate].
    injection Gc as <-. injection Gc' as <-. exists d, e. rewrite !OC. auto.
  Qed.

  (** The references of every field: in the order of the mappings and of their fields, the other readable fields. *)
  Theorem C43_exact : forall d user maps m f, mappings user = Ok maps -> get_mappings d user = Ok m -> refs m f = refs_spec d maps f.
  Proof.
    intros d user maps m f H G. unfold ModelMap_Model.get_mappings in G. rewrite H in G. cbn [bind] in G. rewrite (map_loop_refs _ _ _ _ G f). reflexivity.
  Qed.
  Theorem C43_references : forall d user maps m f g, mappings user = Ok maps -> get_mappings d user = Ok m ->
    (In g (refs m f) <-> mapped get_field d maps f g).
  Proof.
    intros d user maps m f g H G. rewrite (C43_exact _ _ _ _ _ H G). unfold ModelMap_Props.refs_spec, mapped. rewrite in_flat_map. split.
    - intros [[n fs] [I J]]. cbn [snd] in J. unfold ModelMap_Props.refs_in in J. apply in_flat_map in J. destruct J as [f' [J K]].
      destruct (String.eqb_spec f' f) as [->|]; [|destruct K]. cbn [andb] in K. destruct (usableb d f) eqn:U; [|destruct K].
      unfold ModelMap_Props.others in K. apply filter_In in K. destruct K as [K L]. apply andb_true_iff in L. destruct L as [L1 L2]. apply negb_true_iff, String.eqb_neq in L1.
      exists n, fs. repeat split; auto; [now apply usableb_iff|now apply readable_iff].
    - intros [n [fs [I [If [Ig [N [U A]]]]]]]. exists (n, fs). split; auto. cbn [snd]. unfold ModelMap_Props.refs_in. apply in_flat_map. exists f. split; auto.
      rewrite String.eqb_refl. apply usableb_iff in U. rewrite U. cbn [andb]. unfold ModelMap_Props.others. apply filter_In. split; auto. apply readable_iff in A. rewrite A.
      destruct (String.eqb_spec g f); [congruence|reflexivity].
  Qed.
  Lemma map_loop_uniform d maps : forall m m', map_loop get_field d maps m = Ok m' -> forall n fs, In (n, fs) maps -> uniform d (mem n special_values) fs.
  Proof.
    induction maps as [|[k ks] maps IH]; intros m m' H n fs I; [destruct I|]. cbn [map_loop] in H. apply bind_ok in H. destruct H as [m1 [A B]]. destruct I as [I|I]; [|eapply IH; eauto].
    injection I as -> ->. apply fine_uniform. eapply from_loop_fine; eauto.
  Qed.
  Lemma map_loop_ok d maps : quiet -> (forall n fs, In (n, fs) maps -> uniform d (mem n special_values) fs) -> forall m, exists m', map_loop get_field d maps m = Ok m'.
  Proof.
    intros Q. induction maps as [|[k ks] maps IH]; intros U m; cbn [map_loop]; eauto.
    destruct (from_loop_ok d (mem k special_values) ks ks Q) with (m := m) as [m1 E]; [apply fine_uniform, U; now left|]. rewrite E. cbn [bind]. apply IH. intros; apply U; now right.
  Qed.
  (** Mapped both ways or not at all. *)
  Theorem C43_symmetric : forall d user m f g, get_mappings d user = Ok m -> (In g (refs m f) <-> In f (refs m g)).
  Proof.
    intros d user m f g G. destruct (mappings user) as [maps|e] eqn:H; [|unfold ModelMap_Model.get_mappings in G; rewrite H in G; discriminate].
    assert (S : forall f g, mapped get_field d maps f g -> mapped get_field d maps g f).
    { clear f g. intros f g [n [fs [I [If [Ig [N [[ff [E U]] [gf A]]]]]]]]. exists n, fs. repeat split; auto; [|now exists ff].
      exists gf. split; auto. intros D. specialize (U D). unfold ModelMap_Model.get_mappings in G. rewrite H in G. cbn [bind] in G.
      destruct (map_loop_uniform _ _ _ _ G _ _ I) as [X _]. rewrite (X f g ff gf); auto. exists ff. auto. }
    rewrite !(C43_references _ _ _ _ _ _ H G). split; apply S.
  Qed.
  (** No name is among its own references, and every name can be read. *)
  Theorem C43_not_itself_partial : forall d user m f g, get_mappings d user = Ok m -> In g (refs m f) -> g <> f /\ accessible f /\ accessible g.
  Proof.
    intros d user m f g G I. destruct (mappings user) as [maps|e] eqn:H; [|unfold ModelMap_Model.get_mappings in G; rewrite H in G; discriminate].
    apply (C43_references _ _ _ _ _ _ H G) in I. destruct I as [n [fs [_ [_ [_ [N [[ff [E _]] A]]]]]]]. repeat split; auto. now exists ff.
  Qed.
  (** The call succeeds exactly when each mapping is of one type and the user's own contain no dimension group. *)
  Theorem C43_succeeds_iff : forall d user maps, quiet -> mappings user = Ok maps ->
    ((exists m, get_mappings d user = Ok m) <-> forall n fs, In (n, fs) maps -> uniform d (mem n calendar) fs)
    /\ (forall e, get_mappings d user = Err e -> e = QueryError).
  Proof. rewrite <- ?calendar_spec.
    intros d user maps Q H. unfold ModelMap_Model.get_mappings. rewrite H. cbn [bind]. split; [split|].
    - intros [m G]. eapply map_loop_uniform; eauto.
    - intros U. apply map_loop_ok; auto.
    - intros e. now apply map_loop_err.
  Qed.
  (** In particular mixed types are refused. *)
  Theorem C43_mixed : forall d user maps n fs f g ff gf, quiet -> mappings user = Ok maps -> In (n, fs) maps -> In f fs -> In g fs ->
    get_field f = Ok ff -> get_field g = Ok gf -> mf_type ff <> mf_type gf -> get_mappings d user = Err QueryError.
  Proof.
    intros d user maps n fs f g ff gf Q H I If Ig Ef Eg N. destruct (C43_succeeds_iff d user maps Q H) as [S E].
    destruct (get_mappings d user) as [m|e] eqn:G; [|now rewrite (E e)]. exfalso. assert (U := proj1 S (ex_intro _ m eq_refl) n fs I). destruct U as [U _].
    assert (D : f <> g) by (intros ->; congruence). destruct (ftype_eqb (mf_type ff) FMeasure) eqn:T.
    - apply ftype_eqb_eq in T. apply N. eapply (U g f gf ff); eauto. exists gf. split; auto. intros _. congruence.
    - apply N. symmetry. eapply (U f g ff gf); eauto. exists ff. split; auto. intros _ T'. apply ftype_eqb_eq in T'. congruence.
  Qed.

  (** Type and join hash recorded for a field are its own. *)
  Definition entries_right (m : mapping) : Prop := forall f e, In (f, e) m -> exists ff, get_field f = Ok ff /\ en_type e = mf_type ff /\ en_hash e = mf_hash ff
    /\ en_refs e <> [] /\ forall r, In r (en_refs e) -> exists gf, get_field (rf_field r) = Ok gf /\ rf_hash r = mf_hash gf.
  Lemma add_reference_right m from t tf ff sp : get_field from = Ok ff -> get_field t = Ok tf -> entries_right m -> entries_right (add_reference m from (Reference t (mf_hash tf)) ff sp).
  Proof.
    intros Ff Ft. induction m as [|[k e] m IH]; intros R f e' I; cbn [add_reference] in I.
    - destruct I as [I|[]]. injection I as <- <-. exists ff. cbn. repeat split; auto; [discriminate|]. intros r [<-|[]]. exists tf. auto.
    - assert (R' : entries_right m) by (intros ? ? J; apply R; now right). destruct (String.eqb_spec k from) as [->|N].
      + destruct I as [I|I]; [|apply R; now right]. injection I as <- <-. destruct (R from e (or_introl eq_refl)) as [x [A [B [C [D E]]]]]. exists x. cbn [en_type en_hash en_refs].
        repeat split; auto; [destruct (en_refs e); discriminate|]. intros r J. apply in_app_or in J. destruct J as [J|[<-|[]]]; auto. exists tf. auto.
      + destruct I as [I|I]; [apply R; now left|]. now apply IH.
  Qed.
  Lemma to_loop_right sp from ff tos : get_field from = Ok ff -> forall m m', to_loop get_field sp from ff tos m = Ok m' -> entries_right m -> entries_right m'.
  Proof.
    intros Ff. induction tos as [|t tos IH]; intros m m' H R; cbn [to_loop] in H; [now injection H as <-|].
    destruct (String.eqb t from); [eauto|]. destruct (get_field t) as [tf|e] eqn:G; [|destruct e; try discriminate; eauto].
    destruct (ftype_eqb (mf_type tf) (mf_type ff)); [|discriminate]. eapply IH; [exact H|]. now apply add_reference_right.
  Qed.
  Lemma from_loop_right d sp all froms : forall m m', from_loop get_field d sp all froms m = Ok m' -> entries_right m -> entries_right m'.
  Proof.
    induction froms as [|f froms IH]; intros m m' H R; cbn [from_loop] in H; [now injection H as <-|].
    destruct (get_field f) as [ff|e] eqn:G; [|destruct e; try discriminate; eauto]. destruct (d && ftype_eqb (mf_type ff) FMeasure); [eauto|].
    destruct (ftype_eqb (mf_type ff) FGroup && negb sp); [discriminate|]. apply bind_ok in H. destruct H as [m1 [A B]]. eapply IH; [exact B|]. eapply to_loop_right; eauto.
  Qed.
  (** The canon date flag: an entry has it when the first mapping to give the field a reference is a reserved one. *)
  Definition flag (m : mapping) (f : string) : option bool := match assoc f m with Some e => Some (en_canon e) | None => None end.
  Definition or_flag (a : option bool) (l : list string) (sp : bool) : option bool :=
    match a with Some b => Some b | None => match l with [] => None | _ => Some sp end end.
  Lemma or_flag_app a l l' sp : or_flag (or_flag a l sp) l' sp = or_flag a (l ++ l') sp.
  Proof. destruct a; [reflexivity|]. destruct l; [reflexivity|]. reflexivity. Qed.
  Lemma add_reference_flag m from r ff sp f :
    flag (add_reference m from r ff sp) f = or_flag (flag m f) (if String.eqb from f then [rf_field r] else []) sp.
  Proof.
    unfold flag. induction m as [|[k e] m IH]; cbn [add_reference assoc].
    - rewrite String.eqb_sym. now destruct (String.eqb from f).
    - destruct (String.eqb_spec k from) as [->|N]; cbn [assoc].
      + rewrite String.eqb_sym. destruct (String.eqb from f); [reflexivity|]. now destruct (assoc f m).
      + destruct (String.eqb_spec f k) as [->|N2]; [reflexivity|]. exact IH.
  Qed.
  Lemma to_loop_flag sp from ff tos : forall m m', to_loop get_field sp from ff tos m = Ok m' ->
    forall g, flag m' g = or_flag (flag m g) (if String.eqb from g then others from tos else []) sp.
  Proof.
    induction tos as [|t tos IH]; intros m m' H g; cbn [to_loop] in H.
    - injection H as <-. cbn. destruct (flag m g), (String.eqb from g); reflexivity.
    - unfold ModelMap_Props.others. cbn [filter]. unfold ModelMap_Props.readable at 1. destruct (String.eqb_spec t from) as [->|N]; cbn [negb andb].
      + now apply IH.
      + destruct (get_field t) as [tf|e] eqn:G; [|destruct e; try discriminate; now apply IH].
        destruct (ftype_eqb (mf_type tf) (mf_type ff)); [|discriminate]. rewrite (IH _ _ H g), add_reference_flag, or_flag_app.
        destruct (String.eqb from g); reflexivity.
  Qed.
  Lemma from_loop_flag d sp all froms : forall m m', from_loop get_field d sp all froms m = Ok m' ->
    forall g, flag m' g = or_flag (flag m g) (refs_in d g froms all) sp.
  Proof.
    induction froms as [|f froms IH]; intros m m' H g; cbn [from_loop] in H.
    - injection H as <-. cbn. now destruct (flag m g).
    - unfold ModelMap_Props.refs_in. cbn [flat_map]. unfold ModelMap_Props.usableb at 1.
      destruct (get_field f) as [ff|e] eqn:G.
      + assert (EG : String.eqb f g = true -> get_field g = Ok ff) by (intros E; apply String.eqb_eq in E; congruence).
        destruct (d && ftype_eqb (mf_type ff) FMeasure) eqn:D.
        * rewrite (IH _ _ H g). f_equal. destruct (String.eqb f g) eqn:E; [|reflexivity]. rewrite (EG eq_refl), D. reflexivity.
        * destruct (ftype_eqb (mf_type ff) FGroup && negb sp); [discriminate|]. apply bind_ok in H. destruct H as [m1 [A B]].
          rewrite (IH _ _ B g), (to_loop_flag _ _ _ _ _ _ A g), or_flag_app. f_equal. destruct (String.eqb_spec f g) as [->|N]; [|reflexivity].
          rewrite (EG eq_refl), D. reflexivity.
      + destruct e; try discriminate. rewrite (IH _ _ H g). f_equal. destruct (String.eqb_spec f g) as [->|N]; [|reflexivity]. rewrite G. reflexivity.
  Qed.
  Theorem C43_canon_date : forall d user maps m f, mappings user = Ok maps -> get_mappings d user = Ok m ->
    flag m f = match find (fun nfs => match refs_in d f (snd nfs) (snd nfs) with [] => false | _ => true end) maps with
               | Some nfs => Some (mem (fst nfs) calendar) | None => None end.
  Proof. rewrite <- ?calendar_spec.
    intros d user maps m f M G. unfold ModelMap_Model.get_mappings in G. rewrite M in G. cbn [bind] in G. clear M user.
    assert (R : forall maps m m', map_loop get_field d maps m = Ok m' -> flag m' f = match flag m f with Some b => Some b | None =>
      match find (fun nfs => match refs_in d f (snd nfs) (snd nfs) with [] => false | _ => true end) maps with
               | Some nfs => Some (mem (fst nfs) special_values) | None => None end end).
    { clear. induction maps as [|[n fs] maps IH]; intros m m' H; cbn [map_loop find snd fst] in *; [injection H as <-; now destruct (flag m f)|].
      apply bind_ok in H. destruct H as [m1 [A B]]. rewrite (IH _ _ B), (from_loop_flag _ _ _ _ _ _ A f). destruct (flag m f); [reflexivity|].
      cbn [or_flag]. destruct (refs_in d f fs fs); reflexivity. }
    apply (R _ _ _ G).
  Qed.
  Theorem C43_entries : forall d user m, get_mappings d user = Ok m -> entries_right m.
  Proof.
    intros d user m G. unfold ModelMap_Model.get_mappings in G. apply bind_ok in G. destruct G as [maps [_ G]].
    assert (R : forall maps m m', map_loop get_field d maps m = Ok m' -> entries_right m -> entries_right m').
    { clear. induction maps as [|[n fs] maps IH]; intros m m' H R; cbn [map_loop] in H; [now injection H as <-|]. apply bind_ok in H. destruct H as [m1 [A B]].
      eapply IH; [exact B|]. eapply from_loop_right; eauto. }
    eapply R; [exact G|]. intros f e [].
  Qed.
End Proofs.
Print Assumptions C43_reserved.
Print Assumptions C43_canon_date.
Print Assumptions C43_dates.
Print Assumptions C43_dates_order.
Print Assumptions C43_exact.
Print Assumptions C43_references.
Print Assumptions C43_symmetric.
Print Assumptions C43_not_itself_partial.
Print Assumptions C43_succeeds_iff.
Print Assumptions C43_mixed.
Print Assumptions C43_entries.

(** ** A project: names are found whatever their case *)
Definition gf (n : string) : res mfield :=
  if mem n ["orders.region"; "Orders.region"] then Ok (MField "orders.region" FDim "g1")
  else if String.eqb n "customers.region" then Ok (MField "customers.region" FDim "g2")
  else if String.eqb n "orders.order_date" then Ok (MField "orders.order_date" FGroup "g1")
  else Err AccessDenied.
Example mappings_example :
  exists m, get_mappings gf (fun i => String.eqb i "orders.order_date") [Some "orders.order"; None; None] false
              [("region", ["orders.region"; "hidden.region"; "customers.region"])] = Ok m
    /\ refs m "orders.region" = ["customers.region"] /\ refs m "customers.region" = ["orders.region"] /\ refs m "orders.order_date" = [].
Proof. eexists. split; [vm_compute; reflexivity|]. repeat split; reflexivity. Qed.
(** A field written in two ways references itself. *)
Theorem C43_itself_refuted : exists m f g ff, get_mappings gf (fun _ => false) [] false [("region", ["orders.region"; "Orders.region"])] = Ok m
  /\ In g (refs m f) /\ gf f = Ok ff /\ gf g = Ok ff.
Proof. eexists. exists "orders.region", "Orders.region". eexists. split; [vm_compute; reflexivity|]. repeat split; cbn; auto. Qed.
Print Assumptions C43_itself_refuted.
(** A field listed twice makes the others reference it twice. *)
Theorem C43_repeated_refuted : exists m, get_mappings gf (fun _ => false) [] false [("region", ["orders.region"; "customers.region"; "orders.region"])] = Ok m
  /\ ~ NoDup (refs m "customers.region").
Proof. eexists. split; [vm_compute; reflexivity|]. intros H. inversion H as [|? ? N _]. apply N. now left. Qed.
Print Assumptions C43_repeated_refuted.
