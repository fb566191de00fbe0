(** C88: a reference in a field's SQL stands for the value of the field it refers to. *)
From Coq Require Import List String Bool Arith ZArith Lia.
From Verif Require Import PyBase Prec_Model Prec_Spec Prec_Proofs Prec_Exact.
Import ListNotations.
Local Open Scope string_scope.
Local Open Scope list_scope.
Local Open Scope nat_scope.

(** A text is read in one way only, whatever level it is read at. *)
Theorem C88_unique : forall ts e e', reads ts e -> reads ts e' -> e = e'.
Proof. intros ts e e'. apply R_unique. Qed.
(** So a field means one thing. *)
Theorem C88_one_meaning : forall p x e e', means p x e -> means p x e' -> e = e'.
Proof.
  assert (A : forall (M M' : string -> expr -> Prop) e0, (forall y a b, M y a -> M' y b -> a = b) ->
    forall a b, inst M e0 a -> inst M' e0 b -> a = b).
  { intros M M' e0 D. induction e0; intros a b X Y; inversion X; inversion Y; subst; f_equal; eauto. }
  intros p x e e' [n H] [m H']. revert x e e' m H H'. induction n as [|n IH]; intros x e e' m H H'; [destruct H|].
  destruct m as [|m]; [destruct H'|]. cbn [means_to] in H, H'.
  destruct H as [d [e0 [e1 [P [Rd [I E]]]]]]. destruct H' as [d' [e0' [e1' [P' [Rd' [I' E']]]]]].
  rewrite P in P'. injection P' as <-. assert (e0 = e0') by (eapply C88_unique; eassumption). subst e0'.
  assert (e1 = e1') by (eapply (A _ _ e0); [| exact I | exact I']; intros; eapply IH; eassumption).
  now subst.
Qed.

(** The text of a measure of type number reads as its meaning whenever the texts of the fields it refers to do,
    whatever operators they are written with. *)
Theorem C88_number : forall p fuel x d t e,
  p x = Some d -> f_kind d = KNumber -> full_text p (S fuel) x = Ok t -> means p x e ->
  (forall y ty ey, In (TRef y) (f_sql d) -> full_text p fuel y = Ok ty -> means p y ey -> reads ty ey) ->
  reads t e.
Proof.
  intros p fuel x d t e P K T [n M] H. destruct n as [|n]; [destruct M|]. cbn [means_to] in M.
  destruct M as [d' [e0 [e1 [P' [Rd [I E]]]]]]. rewrite P in P'. injection P' as <-. rewrite K in E. subst e1.
  cbn [full_text] in T. rewrite P, K in T.
  apply (R_subst (fun _ => 7) (fun _ => 7) (means_to p n) _ _ _ _ Rd _ _ T I).
  intros y ty ey Iy Fy My. apply bind_ok in Fy. destruct Fy as [u [Fu U]]. injection U as <-.
  apply R_paren. apply (H y); [exact Iy | exact Fu | exists n; exact My].
Qed.

(** A project whose dimensions can be given levels: every reference stands where a text of that level may stand, every
    dimension's text has its own level, and dimensions and aggregates refer to dimensions only *)
Definition levelled (p : string -> option fdef) (lv : string -> nat) : Prop :=
  forall y d, p y = Some d -> f_kind d <> KNumber ->
    (exists e, R lv (match f_kind d with KDim => lv y | _ => 0 end) (f_sql d) e) /\
    (forall z, In (TRef z) (f_sql d) -> exists g, p z = Some g /\ f_kind g = KDim).

Lemma raw_reads : forall p lv fuel x d t n e, levelled p lv -> p x = Some d -> f_kind d <> KNumber ->
  raw_text p fuel x = Ok t ->
  (exists e0 e1, reads (f_sql d) e0 /\ inst (means_to p n) e0 e1 /\ e = e1) ->
  R (fun _ => 7) (match f_kind d with KDim => lv x | _ => 0 end) t e.
Proof.
  intros p lv fuel. induction fuel as [|fuel IH]; intros x d t n e L P K T [e0 [e1 [Rd [I ->]]]]; [discriminate|].
  cbn [raw_text] in T. rewrite P in T. destruct (L x d P K) as [[e0' R0] Z].
  assert (e0' = e0) by (eapply R_unique; eassumption). subst e0'.
  assert (T' : subst_refs (raw_text p fuel) (f_sql d) = Ok t) by (destruct (f_kind d); [exact T | exact T | congruence]).
  apply (R_subst lv (fun _ => 7) (means_to p n) _ _ _ _ R0 _ _ T' I).
  intros y ty ey Iy Fy My. destruct (Z y Iy) as [g [Pg Kg]].
  destruct n as [|n]; [destruct My|]. cbn [means_to] in My. destruct My as [g' [a0 [a1 [Pg' [Ra [Ia Ea]]]]]].
  rewrite Pg in Pg'. injection Pg' as <-. rewrite Kg in Ea. subst ey.
  pose proof (IH y g ty n a1 L Pg) as Q. rewrite Kg in Q. apply Q; [discriminate | exact Fy |].
  exists a0, a1. auto.
Qed.

(** The full statement, for every project, is false (below).  In a project whose dimensions can be given levels every
    field's text reads as its meaning. *)
Theorem C88_reads_partial : forall p lv fuel x t e,
  levelled p lv -> full_text p fuel x = Ok t -> means p x e -> reads t e.
Proof.
  intros p lv fuel. induction fuel as [|fuel IH]; intros x t e L T M; [discriminate|].
  pose proof T as T0. cbn [full_text] in T. destruct (p x) as [d|] eqn:P; [|discriminate].
  pose proof M as M0. destruct M as [n M]. destruct n as [|n]; [destruct M|]. cbn [means_to] in M.
  destruct M as [d' [e0 [e1 [P' [Rd [I E]]]]]]. rewrite P in P'. injection P' as <-.
  destruct (f_kind d) as [|fs|] eqn:K.
  - subst e. apply (R_weaken _ (lv x)); [|lia].
    pose proof (raw_reads p lv (S fuel) x d t n e1 L P) as Q. rewrite K in Q. apply Q; [discriminate | exact T |].
    exists e0, e1. auto.
  - apply bind_ok in T. destruct T as [u [U V]]. injection V as <-. subst e. apply calls_R.
    pose proof (raw_reads p lv (S fuel) x d u n e1 L P) as Q. rewrite K in Q. apply Q; [discriminate | exact U |].
    exists e0, e1. auto.
  - apply (C88_number p fuel x d t e P K T0 M0). intros y ty ey _ Fy My. apply (IH y ty ey L Fy My).
Qed.
(** Put in place of a reference, a dimension's text keeps its level. *)
Theorem C88_dimension_partial : forall p lv fuel x d t e,
  levelled p lv -> p x = Some d -> f_kind d = KDim -> raw_text p fuel x = Ok t -> means p x e ->
  R (fun _ => 7) (lv x) t e.
Proof.
  intros p lv fuel x d t e L P K T [n M]. destruct n as [|n]; [destruct M|]. cbn [means_to] in M.
  destruct M as [d' [e0 [e1 [P' [Rd [I E]]]]]]. rewrite P in P'. injection P' as <-. rewrite K in E. subst e.
  pose proof (raw_reads p lv fuel x d t n e1 L P) as Q. rewrite K in Q. apply Q; [discriminate | exact T |].
  exists e0, e1. auto.
Qed.

(** A field a dimension or aggregate refers to, through any number of references *)
Inductive reached (p : string -> option fdef) : string -> string -> Prop :=
  | reached_self x : reached p x x
  | reached_step x d y z : p x = Some d -> In (TRef y) (f_sql d) -> reached p y z -> reached p x z.
(** A dimension or aggregate has a text only if every field it reaches exists and none is a measure of type number. *)
Theorem C88_refused : forall p fuel x t y, raw_text p fuel x = Ok t -> reached p x y ->
  exists d, p y = Some d /\ f_kind d <> KNumber.
Proof.
  intros p fuel x t y T H. revert fuel t T. induction H as [x|x d y z P I H IH]; intros fuel t T;
    (destruct fuel as [|fuel]; [discriminate|]; cbn [raw_text] in T).
  - destruct (p x) as [d|] eqn:P; [|discriminate]. exists d. split; [reflexivity|]. intro K. rewrite K in T. discriminate.
  - rewrite P in T.
    assert (T' : subst_refs (raw_text p fuel) (f_sql d) = Ok t) by (destruct (f_kind d); [exact T | exact T | discriminate T]).
    apply in_split in I. destruct I as [a [b E]]. rewrite E in T'. apply subst_app in T'. destruct T' as [u [v [_ [V _]]]].
    change (TRef y :: b) with ([TRef y] ++ b) in V. apply subst_app in V. destruct V as [w [_ [W _]]]. apply subst_ref in W.
    apply (IH fuel w W).
Qed.
(** References that go on for so many steps *)
Fixpoint deep (p : string -> option fdef) (n : nat) (x : string) : Prop :=
  match n with
  | O => True
  | S n => exists d y, p x = Some d /\ In (TRef y) (f_sql d) /\ deep p n y
  end.
(** Why a field has no text: its references go on too long, one of them is to a field that does not exist, or a field that is not
    of type number refers to one that is. *)
Definition misplaced (p : string -> option fdef) (x : string) : Prop :=
  exists z dz y dy, reached p x z /\ p z = Some dz /\ f_kind dz <> KNumber /\ In (TRef y) (f_sql dz) /\ p y = Some dy /\ f_kind dy = KNumber.
Lemma subst_err : forall f ts e, subst_refs f ts = Err e -> exists y, In (TRef y) ts /\ f y = Err e.
Proof.
  intros f ts e H. apply concatM_err in H. destruct H as [t [I F]]. destruct t; try discriminate. eauto.
Qed.
Lemma raw_err : forall p fuel x e, raw_text p fuel x = Err e ->
  e = RecursionError /\ (fuel = 0 \/ deep p (pred fuel) x) \/ e = AccessDenied /\ (exists y, reached p x y /\ p y = None) \/
  e = QueryError /\ ((exists d, p x = Some d /\ f_kind d = KNumber) \/ misplaced p x).
Proof.
  intros p fuel. induction fuel as [|fuel IH]; intros x e H; cbn [raw_text] in H.
  - injection H as <-. left. auto.
  - destruct (p x) as [d|] eqn:P.
    2:{ injection H as <-. right. left. split; [reflexivity|]. exists x. split; [constructor | exact P]. }
    assert (Q : f_kind d = KNumber \/ f_kind d <> KNumber) by (destruct (f_kind d); (now left) || (right; discriminate)).
    destruct Q as [K|K].
    + rewrite K in H. injection H as <-. right. right. split; [reflexivity|]. left. eauto.
    + assert (H' : subst_refs (raw_text p fuel) (f_sql d) = Err e) by (destruct (f_kind d); [exact H | exact H | congruence]).
      apply subst_err in H'. destruct H' as [y [I F]]. destruct (IH y e F) as [[-> D]|[[-> [z [Z N]]]|[-> D]]].
      * left. split; [reflexivity|]. right. cbn [pred]. destruct D as [-> | D]; [cbn; exact Logic.I|].
        destruct fuel as [|fuel]; [exact Logic.I|]. cbn [pred deep] in *. eauto.
      * right. left. split; [reflexivity|]. exists z. split; [econstructor; eassumption | exact N].
      * right. right. split; [reflexivity|]. right. destruct D as [[dy [Py Ky]] | [z [dz [w [dw [A B]]]]]].
        -- exists x, d, y, dy. repeat (split; [first [constructor | assumption]|]). exact Ky.
        -- exists z, dz, w, dw. split; [econstructor; eassumption | exact B].
Qed.
Theorem C88_errors : forall p fuel x e, full_text p fuel x = Err e ->
  e = RecursionError /\ (fuel = 0 \/ deep p (pred fuel) x) \/ e = AccessDenied /\ (exists y, reached p x y /\ p y = None) \/
  e = QueryError /\ misplaced p x.
Proof.
  intros p fuel. induction fuel as [|fuel IH]; intros x e H.
  - cbn [full_text] in H. injection H as <-. left. auto.
  - assert (Q : (forall d, p x = Some d -> f_kind d <> KNumber) -> raw_text p (S fuel) x = Err e ->
      e = RecursionError /\ (S fuel = 0 \/ deep p (pred (S fuel)) x) \/ e = AccessDenied /\ (exists y, reached p x y /\ p y = None) \/
      e = QueryError /\ misplaced p x).
    { intros K T. destruct (raw_err p (S fuel) x e T) as [A|[A|[A [[d [P D]]|B]]]]; auto. destruct (K d P D). }
    cbn [full_text] in H. destruct (p x) as [d|] eqn:P.
    2:{ injection H as <-. right. left. split; [reflexivity|]. exists x. split; [constructor | exact P]. }
    destruct (f_kind d) eqn:K.
    + apply Q; [intros d' E; injection E as <-; rewrite K; discriminate | exact H].
    + apply Q; [intros d' E; injection E as <-; rewrite K; discriminate|].
      destruct (raw_text p (S fuel) x) as [t|e']; [discriminate H | exact H].
    + apply subst_err in H. destruct H as [y [I F]].
      assert (F' : full_text p fuel y = Err e) by (destruct (full_text p fuel y); [discriminate F | exact F]).
      destruct (IH y e F') as [[-> D]|[[-> [z [Z N]]]|[-> [z [dz [w [dw [A B]]]]]]]].
      * left. split; [reflexivity|]. right. cbn [pred]. destruct D as [-> | D]; [cbn; exact Logic.I|].
        destruct fuel as [|fuel]; [exact Logic.I|]. cbn [pred deep] in *. eauto.
      * right. left. split; [reflexivity|]. exists z. split; [econstructor; eassumption | exact N].
      * right. right. split; [reflexivity|]. exists z, dz, w, dw. split; [econstructor; eassumption | exact B].
Qed.

(** Levels are not only enough but needed: when the fields it refers to read as meant, the text of a dimension or
    aggregate reads as meant exactly when its references can be given levels that their texts have and that its own
    text allows them. *)
Lemma inst_in : forall lv n ts e, R lv n ts e -> forall (M : string -> expr -> Prop) e', inst M e e' ->
  inst (fun y ey => In (TRef y) ts /\ M y ey) e e'.
Proof.
  intros lv n ts e H. induction H; intros M e' I.
  - inversion I; subst. constructor.
  - inversion I; subst. constructor. split; [now left | assumption].
  - eapply inst_mono; [|apply IHR; exact I]. intros y ey [A B]. split; [right; apply in_or_app; now left | exact B].
  - inversion I; subst. constructor. eapply inst_mono; [|apply IHR; eassumption].
    intros y ey [A B]. split; [right; apply in_or_app; now left | exact B].
  - inversion I; subst. constructor; (eapply inst_mono; [|first [apply IHR1; eassumption | apply IHR2; eassumption]]);
      intros y ey [A B]; split; try exact B; right; apply in_or_app; [now left | right; right; apply in_or_app; now left].
  - inversion I; subst. constructor. eapply inst_mono; [|apply IHR; eassumption].
    intros y ey [A B]. split; [now right | exact B].
  - inversion I; subst. constructor; (eapply inst_mono; [|first [apply IHR1; eassumption | apply IHR2; eassumption]]);
      intros y ey [A B]; split; try exact B; apply in_or_app; [now left | right; now right].
  - apply IHR. exact I.
Qed.
Theorem C88_exact : forall p fuel x d t e0 e,
  p x = Some d -> raw_text p (S fuel) x = Ok t -> reads (f_sql d) e0 -> inst (means p) e0 e ->
  (forall y ty ey, In (TRef y) (f_sql d) -> raw_text p fuel y = Ok ty -> means p y ey -> reads ty ey) ->
  (reads t e <->
   exists lv, (forall y, lv y <= 7) /\ R lv 0 (f_sql d) e0 /\
     forall y ty ey, In (TRef y) (f_sql d) -> raw_text p fuel y = Ok ty -> means p y ey -> R (fun _ => 7) (lv y) ty ey).
Proof.
  intros p fuel x d t e0 e P T Rd I H. cbn [raw_text] in T. rewrite P in T.
  assert (T' : subst_refs (raw_text p fuel) (f_sql d) = Ok t) by (destruct (f_kind d); [exact T | exact T | discriminate T]).
  split.
  - intro Q. destruct (levels_needed (raw_text p fuel) (fun y ey => In (TRef y) (f_sql d) /\ means p y ey)) with
      (n := 0) (ts := f_sql d) (e := e0) (m := 0) (ts' := t) (e' := e) as [lv [B [C D]]]; try assumption.
    + intros y ty ey F [A B]. apply (H y); assumption.
    + apply (inst_in _ _ _ _ Rd). exact I.
    + exists lv. split; [exact B|]. split; [exact D|]. intros y ty ey A F Y. apply (C y); [exact F | split; assumption].
  - intros [lv [_ [D C]]]. apply (R_subst lv (fun _ => 7) (means p) _ _ _ _ D _ _ T' I). exact C.
Qed.

(** Why a merged result has no text: its references go on too long or one of them is to a field that does not exist. *)
Theorem C88_merged_errors : forall p fuel x e, strict_text p fuel x = Err e ->
  e = RecursionError /\ (fuel = 0 \/ deep p (pred fuel) x) \/ e = AccessDenied /\ (exists y, reached p x y /\ p y = None).
Proof.
  intros p fuel. induction fuel as [|fuel IH]; intros x e H; cbn [strict_text] in H.
  - injection H as <-. left. auto.
  - destruct (p x) as [d|] eqn:P.
    2:{ injection H as <-. right. split; [reflexivity|]. exists x. split; [constructor | exact P]. }
    apply subst_err in H. destruct H as [y [I F]]. destruct (p y) as [g|] eqn:Py.
    2:{ injection F as <-. right. split; [reflexivity|]. exists y. split; [econstructor; [eassumption | eassumption | constructor] | exact Py]. }
    destruct (f_kind g); try discriminate F.
    assert (F' : strict_text p fuel y = Err e) by (destruct (strict_text p fuel y); [discriminate F | exact F]).
    destruct (IH y e F') as [[-> D]|[-> [z [Z N]]]].
    + left. split; [reflexivity|]. right. cbn [pred]. destruct D as [-> | D]; [cbn; exact Logic.I|].
      destruct fuel as [|fuel]; [exact Logic.I|]. cbn [pred deep] in *. eauto.
    + right. split; [reflexivity|]. exists z. split; [econstructor; eassumption | exact N].
Qed.
Lemma subst_app_ok : forall f a b ta tb, subst_refs f a = Ok ta -> subst_refs f b = Ok tb -> subst_refs f (a ++ b) = Ok (ta ++ tb).
Proof.
  intros f a b ta tb A B. unfold subst_refs in *. revert ta A. induction a as [|t a IH]; intros ta A.
  - cbn in A. injection A as <-. exact B.
  - cbn [app concatM] in *. apply bind_ok in A. destruct A as [u [U A]]. apply bind_ok in A. destruct A as [us [V A]].
    injection A as <-. rewrite U. cbn [bind]. rewrite (IH us V). cbn [bind]. now rewrite app_assoc.
Qed.
(** The condition of a join: it reads as meant exactly when its references stand where the texts of the fields may. *)
Theorem C88_join : forall p fuel sql t e0 e,
  on_text p fuel sql = Ok t -> reads sql e0 -> inst (means p) e0 e ->
  (forall y ty ey, In (TRef y) sql -> full_text p fuel y = Ok ty -> means p y ey -> reads ty ey) ->
  (reads t e <->
   exists lv, (forall y, lv y <= 7) /\ R lv 0 sql e0 /\
     forall y ty ey, In (TRef y) sql -> full_text p fuel y = Ok ty -> means p y ey -> R (fun _ => 7) (lv y) ty ey).
Proof.
  intros p fuel sql t e0 e T Rd I H. unfold on_text in T. split.
  - intro Q. destruct (levels_needed (full_text p fuel) (fun y ey => In (TRef y) sql /\ means p y ey)) with
      (n := 0) (ts := sql) (e := e0) (m := 0) (ts' := t) (e' := e) as [lv [B [C D]]]; try assumption.
    + intros y ty ey F [A B]. apply (H y); assumption.
    + apply (inst_in _ _ _ _ Rd). exact I.
    + exists lv. split; [exact B|]. split; [exact D|]. intros y ty ey A F Y. apply (C y); [exact F | split; assumption].
  - intros [lv [_ [D C]]]. apply (R_subst lv (fun _ => 7) (means p) _ _ _ _ D _ _ T I). exact C.
Qed.
(** A join on an identifier of two views compares the two exactly when neither binds less tightly than "=". *)
Theorem C88_identifier : forall p fuel sa fa sb fb ta tb ea eb,
  match sa with Some s => on_text p fuel s | None => full_text p fuel fa end = Ok ta ->
  match sb with Some s => on_text p fuel s | None => full_text p fuel fb end = Ok tb -> reads ta ea -> reads tb eb ->
  exists t, on_text p fuel (identifier_on (identifier_clause sa fa) (identifier_clause sb fb)) = Ok t /\
    (reads t (EBin (OCmp "=") ea eb) <-> R (fun _ => 7) 4 ta ea /\ R (fun _ => 7) 5 tb eb).
Proof.
  intros p fuel sa fa sb fb ta tb ea eb A0 B0 Ra Rb.
  assert (X : forall s f u, match s with Some s => on_text p fuel s | None => full_text p fuel f end = Ok u ->
                            on_text p fuel (identifier_clause s f) = Ok u).
  { intros [s|] f u H; [exact H|]. unfold on_text, identifier_clause, subst_refs. cbn [concatM]. rewrite H. cbn [bind].
    now rewrite app_nil_r. }
  apply X in A0 as A. apply X in B0 as B. clear X A0 B0.
  generalize dependent (identifier_clause sa fa). generalize dependent (identifier_clause sb fb). intros b B a A. exists (ta ++ TOp (OCmp "=") :: tb). split.
  - unfold on_text, identifier_on in *. apply subst_app_ok; [exact A|].
    change (TOp (OCmp "=") :: b) with ([TOp (OCmp "=")] ++ b). change (TOp (OCmp "=") :: tb) with ([TOp (OCmp "=")] ++ tb).
    apply subst_app_ok; [reflexivity | exact B].
  - split; intro Q.
    + destruct (bin_inv _ _ _ _ Q (OCmp "=") ta ea tb eb eq_refl eq_refl (R_shape _ _ _ _ Ra) (R_shape _ _ _ _ Rb)) as [X [Y _]]. auto.
    + destruct Q as [X Y]. apply (R_weaken _ 4); [|lia]. apply (R_bin _ (OCmp "=")); assumption.
Qed.

(** The query over the subqueries of merged results, where fields are columns already, reads as meant without
    conditions: a field that is not of type number is its column there. *)
Definition as_columns (p : string -> option fdef) (y : string) : option fdef :=
  match p y with
  | Some d => match f_kind d with KNumber => Some d | _ => Some (Fdef KDim [TAtom (f_alias d)] (f_alias d)) end
  | None => None
  end.
Theorem C88_merged : forall p fuel x d t e,
  p x = Some d -> f_kind d = KNumber -> strict_text p fuel x = Ok t -> means (as_columns p) x e -> reads t e.
Proof.
  intros p fuel. induction fuel as [|fuel IH]; intros x d t e P K T [n M]; [discriminate|].
  destruct n as [|n]; [destruct M|]. cbn [means_to] in M.
  destruct M as [d' [e0 [e1 [P' [Rd [I E]]]]]]. unfold as_columns in P'. rewrite P, K in P'. injection P' as <-.
  rewrite K in E. subst e. cbn [strict_text] in T. rewrite P in T.
  apply (R_subst (fun _ => 7) (fun _ => 7) (means_to (as_columns p) n) _ _ _ _ Rd _ _ T I).
  intros y ty ey Iy Fy My. destruct (p y) as [g|] eqn:Pg; [|discriminate].
  assert (C : f_kind g <> KNumber -> Ok [TAtom (f_alias g)] = Ok ty -> R (fun _ => 7) 7 ty ey).
  { intros Kg F. injection F as <-. destruct n as [|n]; [destruct My|]. cbn [means_to] in My.
    destruct My as [g' [a0 [a1 [Pg' [Ra [Ia Ea]]]]]]. unfold as_columns in Pg'. rewrite Pg in Pg'.
    assert (Q : g' = Fdef KDim [TAtom (f_alias g)] (f_alias g)) by (destruct (f_kind g); congruence).
    subst g'. cbn [f_kind f_sql] in *.
    assert (a0 = EAtom (f_alias g)) by (eapply R_unique; [exact Ra | apply (R_atom (fun _ => 7))]). subst a0.
    inversion Ia; subst. apply R_atom. }
  destruct (f_kind g) eqn:Kg; [apply C; [discriminate | exact Fy] | apply C; [discriminate | exact Fy] |].
  apply bind_ok in Fy. destruct Fy as [u [Fu U]]. injection U as <-. apply R_paren.
  apply (IH y g u ey Pg Kg Fu). exists n. exact My.
Qed.

(** ** Conditions *)
(** The level a text must have for a condition on it to be one *)
Definition needs (c : cond) : nat := match c with CCmp _ _ => 4 | CLower _ _ => 0 | CTrue => 3 | CFalse => 3 end.
Lemma cond_R : forall lv c ts e, R lv (needs c) ts e -> R lv 3 (cond_text c ts) (cond_means c e).
Proof.
  intros lv c ts e H. destruct c as [o v|o v| |]; cbn [needs cond_text cond_means] in *.
  - apply R_weak. apply (R_bin lv (OCmp o)); [exact H|]. cbn. apply (R_weaken _ 7); [apply R_atom | lia].
  - apply R_weak.
    replace (TCall "LOWER" :: ts ++ [TClose; TOp (OCmp o); TCall "LOWER"; TAtom v; TClose])
      with ((TCall "LOWER" :: ts ++ [TClose]) ++ TOp (OCmp o) :: TCall "LOWER" :: [TAtom v] ++ [TClose])
      by (cbn [app]; rewrite <- app_assoc; reflexivity).
    apply (R_bin lv (OCmp o)); cbn [prec].
    + apply (R_weaken _ 7); [apply R_call; exact H | lia].
    + apply (R_weaken _ 7); [apply R_call; apply (R_weaken _ 7); [apply R_atom | lia] | lia].
  - exact H.
  - apply R_not. exact H.
Qed.
Lemma and_R : forall lv rest es, Forall2 (R lv 3) rest es -> forall first e, R lv 2 first e ->
  R lv 2 (and_all first rest) (all_mean e es).
Proof.
  intros lv rest es H. induction H as [|t e1 rest es X F IH]; intros first e A; [exact A|].
  cbn [and_all]. unfold all_mean. cbn [fold_left]. apply IH. apply (R_bin lv OAnd); assumption.
Qed.
(** A WHERE clause, or the condition of a measure's filters, reads as all of the conditions when every text compared
    binds at least as tightly as a comparison's side must. *)
Theorem C88_conditions_partial : forall lv c t e (l : list (cond * list tok * expr)),
  R lv (needs c) t e -> Forall (fun z => R lv (needs (fst (fst z))) (snd (fst z)) (snd z)) l ->
  R lv 2 (conds_text ((c, t) :: map fst l)) (all_mean (cond_means c e) (map (fun z => cond_means (fst (fst z)) (snd z)) l)).
Proof.
  intros lv c t e l H F. cbn [conds_text]. apply and_R.
  - rewrite map_map. induction F as [|[[c1 t1] e1] l X F IH]; cbn [map]; constructor; [|exact IH].
    cbn [fst snd] in *. apply cond_R. exact X.
  - apply R_weak. apply cond_R. exact H.
Qed.
(** What a condition by itself needs of the text it is on: a comparison that it binds as tightly as one, NOT that it binds
    as tightly as NOT; this is enough and needed. *)
Definition alone (c : cond) : nat := match c with CCmp _ _ => 4 | CFalse => 3 | _ => 0 end.
Theorem C88_condition : forall c t e, reads t e ->
  (reads (cond_text c t) (cond_means c e) <-> R (fun _ => 7) (alone c) t e).
Proof.
  intros c t e H. split; intro Q.
  - destruct c as [o v|o v| |]; cbn [cond_text cond_means alone] in *; try exact H.
    + apply (bin_inv _ _ _ _ Q (OCmp o) t e [TAtom v] (EAtom v) eq_refl eq_refl);
        [eapply R_shape; exact H | eapply R_shape; apply (R_atom (fun _ => 7))].
    + apply (not_inv _ _ _ _ Q t e eq_refl eq_refl).
  - destruct c as [o v|o v| |]; cbn [alone] in Q;
      try (apply (R_weaken _ 3); [apply cond_R; exact Q | lia]). exact Q.
Qed.
Lemma and_inv : forall rest es, Forall2 shape rest es -> forall n first e, shape first e ->
  R (fun _ => 7) n (and_all first rest) (all_mean e es) ->
  Forall2 (R (fun _ => 7) 3) rest es /\ exists m, R (fun _ => 7) m first e /\ (rest <> [] -> m = 2).
Proof.
  intros rest es H. induction H as [|t e1 rest es X F IH]; intros n first e A Q.
  - split; [constructor|]. exists n. split; [exact Q | congruence].
  - cbn [and_all] in Q. unfold all_mean in Q. cbn [fold_left] in Q.
    destruct (IH n (first ++ TOp OAnd :: t) (EBin OAnd e e1) (shape_bin _ _ _ _ _ A X) Q) as [G [m [Y _]]].
    destruct (bin_inv _ _ _ _ Y OAnd first e t e1 eq_refl eq_refl A X) as [B [C _]].
    split; [constructor; assumption | exists 2; auto].
Qed.
(** Of conditions joined by "and" the first must bind as tightly as AND, the others as tightly as NOT; this is enough and
    needed, whatever texts they are. *)
Theorem C88_and : forall first rest e es, reads first e -> Forall2 reads rest es -> rest <> [] ->
  (reads (and_all first rest) (all_mean e es) <-> R (fun _ => 7) 2 first e /\ Forall2 (R (fun _ => 7) 3) rest es).
Proof.
  intros first rest e es H F N. split.
  - intro Q. destruct (and_inv rest es) with (n := 0) (first := first) (e := e) as [G [m [Y E]]]; try assumption.
    + clear - F. induction F; constructor; [eapply R_shape; eassumption | assumption].
    + eapply R_shape; exact H.
    + rewrite (E N) in Y. auto.
  - intros [A B]. apply (R_weaken _ 2); [|lia]. apply and_R; assumption.
Qed.
(** So conditions joined by "and" mean all of them exactly when every text compared has the level its condition needs;
    each text is the text of a field, and the first only needs to bind as tightly as AND when it is asked to be true. *)
Definition level_in (n : nat) (c : cond) : nat := match c with CTrue => n | _ => alone c end.
Lemma cond_exact : forall n c t e, n <= 3 -> reads t e ->
  (R (fun _ => 7) n (cond_text c t) (cond_means c e) <-> R (fun _ => 7) (level_in n c) t e).
Proof.
  intros n c t e L H. unfold level_in. destruct (C88_condition c t e H) as [A B].
  destruct c as [o v|o v| |]; cbn [alone] in *;
    try (split; intro Q; [apply A; apply (R_weaken _ n); [exact Q | lia] | apply (R_weaken _ 3); [apply cond_R; exact Q | exact L]]).
  cbn [cond_text cond_means]. reflexivity.
Qed.
Theorem C88_conditions : forall c t e (l : list (cond * list tok * expr)),
  l <> [] -> reads t e -> Forall (fun z => reads (snd (fst z)) (snd z)) l ->
  (reads (conds_text ((c, t) :: map fst l)) (all_mean (cond_means c e) (map (fun z => cond_means (fst (fst z)) (snd z)) l)) <->
   R (fun _ => 7) (level_in 2 c) t e /\
   Forall (fun z => R (fun _ => 7) (needs (fst (fst z))) (snd (fst z)) (snd z)) l).
Proof.
  intros c t e l N H F. cbn [conds_text]. rewrite <- (cond_exact 2 c t e) by (auto; lia). rewrite map_map.
  assert (X : forall n, n <= 3 ->
    (Forall2 (R (fun _ => 7) n) (map (fun z => cond_text (fst (fst z)) (snd (fst z))) l) (map (fun z => cond_means (fst (fst z)) (snd z)) l) <->
     Forall (fun z => R (fun _ => 7) (level_in n (fst (fst z))) (snd (fst z)) (snd z)) l)).
  { intros n L. clear N. induction F as [|[[c1 t1] e1] l X F IH]; cbn [map fst snd] in *; [split; constructor|].
    split; intro Q; inversion Q; subst; constructor; try (apply IH; assumption); cbn [fst snd] in *; apply (cond_exact n c1 t1 e1 L X); assumption. }
  split.
  - intro Q. apply and_inv in Q.
    + destruct Q as [G [m [Y E]]]. rewrite E in Y by (destruct l; [congruence | discriminate]). split; [exact Y|].
      apply X in G; [|lia]. eapply Forall_impl; [|exact G]. intros [[c1 t1] e1] Z. cbn [fst snd] in *. destruct c1; exact Z.
    + clear - F. induction F as [|[[c1 t1] e1] l Y F IH]; cbn [map fst snd] in *; constructor; [|exact IH].
      destruct c1 as [o v|o v| |]; cbn [cond_text cond_means].
      * apply shape_bin; [eapply R_shape; exact Y | apply shape_leaf; reflexivity].
      * replace (TCall "LOWER" :: t1 ++ [TClose; TOp (OCmp o); TCall "LOWER"; TAtom v; TClose])
          with ((TCall "LOWER" :: t1 ++ [TClose]) ++ TOp (OCmp o) :: TCall "LOWER" :: [TAtom v] ++ [TClose])
          by (cbn [app]; rewrite <- app_assoc; reflexivity).
        apply shape_bin; (eapply shape_wrap; [eapply R_shape; first [exact Y | apply (R_atom (fun _ => 7))] | eauto | reflexivity | reflexivity]).
      * eapply R_shape; exact Y.
      * apply shape_not. eapply R_shape; exact Y.
    + destruct c as [o v|o v| |]; cbn [cond_text cond_means].
      * apply shape_bin; [eapply R_shape; exact H | apply shape_leaf; reflexivity].
      * replace (TCall "LOWER" :: t ++ [TClose; TOp (OCmp o); TCall "LOWER"; TAtom v; TClose])
          with ((TCall "LOWER" :: t ++ [TClose]) ++ TOp (OCmp o) :: TCall "LOWER" :: [TAtom v] ++ [TClose])
          by (cbn [app]; rewrite <- app_assoc; reflexivity).
        apply shape_bin; (eapply shape_wrap; [eapply R_shape; first [exact H | apply (R_atom (fun _ => 7))] | eauto | reflexivity | reflexivity]).
      * eapply R_shape; exact H.
      * apply shape_not. eapply R_shape; exact H.
  - intros [A B]. apply (R_weaken _ 2); [|lia]. apply and_R; [|exact A].
    apply X; [lia|]. eapply Forall_impl; [|exact B]. intros [[c1 t1] e1] Z. cbn [fst snd] in *. destruct c1; exact Z.
Qed.
(** The bounds of a tier are asked of the text as it is (_translate_looker_tier_to_sql, field.py:2616-2631): a tier holds the values between its
    bounds exactly when the text binds as tightly as a comparison. *)
Theorem C88_tier : forall lo hi t e, reads t e ->
  (reads (conds_text [(CCmp ">=" lo, t); (CCmp "<" hi, t)])
     (EBin OAnd (EBin (OCmp ">=") e (EAtom lo)) (EBin (OCmp "<") e (EAtom hi))) <-> R (fun _ => 7) 4 t e).
Proof.
  intros lo hi t e H.
  pose proof (C88_conditions (CCmp ">=" lo) t e [(CCmp "<" hi, t, e)]) as Q. cbn [map fst snd] in Q.
  rewrite Q; [| discriminate | exact H | constructor; [exact H | constructor]]. cbn [level_in alone]. split; [intros [A _]; exact A|].
  intro A. split; [exact A | constructor; [exact A | constructor]].
Qed.
(** The sum of two columns, unbracketed, is put between the bounds it is meant to be; a comparison is not. *)
Example C88_tier_example :
  reads (conds_text [(CCmp ">=" "10", [TAtom "a"; TOp (OAdd "+"); TAtom "b"]); (CCmp "<" "20", [TAtom "a"; TOp (OAdd "+"); TAtom "b"])])
    (EBin OAnd (EBin (OCmp ">=") (EBin (OAdd "+") (EAtom "a") (EAtom "b")) (EAtom "10"))
               (EBin (OCmp "<") (EBin (OAdd "+") (EAtom "a") (EAtom "b")) (EAtom "20"))).
Proof.
  assert (A : R (fun _ => 7) 4 [TAtom "a"; TOp (OAdd "+"); TAtom "b"] (EBin (OAdd "+") (EAtom "a") (EAtom "b"))).
  { apply (R_weaken _ 5); [|lia].
    apply (R_bin (fun _ => 7) (OAdd "+") [TAtom "a"] (EAtom "a") [TAtom "b"] (EAtom "b")); (apply (R_weaken _ 7); [apply R_atom | cbn; lia]). }
  apply C88_tier; [apply (R_weaken _ 4); [exact A | lia] | exact A].
Qed.
(** A measure's filters: its sql where all of the conditions hold. *)
Theorem C88_measure_filters_partial : forall lv c x (l : list (cond * string)) sql e,
  (forall c' x', In (c', x') ((c, x) :: l) -> needs c' <= lv x' <= 7) -> R lv 0 sql e ->
  R lv 7 (filtered ((c, x) :: l) sql)
    (ECase (all_mean (cond_means c (ERef x)) (map (fun cx => cond_means (fst cx) (ERef (snd cx))) l)) e).
Proof.
  intros lv c x l sql e H S. unfold filtered. apply R_case; [|exact S]. apply (R_weaken _ 2); [|lia]. cbn [map fst snd].
  pose proof (C88_conditions_partial lv c [TRef x] (ERef x) (map (fun cx => (fst cx, [TRef (snd cx)], ERef (snd cx))) l)) as Q.
  rewrite !map_map in Q. cbn [fst snd] in Q. apply Q.
  - destruct (H c x (or_introl eq_refl)). apply (R_weaken _ (lv x)); [apply R_ref|]; assumption.
  - apply Forall_forall. intros z Iz. apply in_map_iff in Iz. destruct Iz as [[c' x'] [<- Iz]]. cbn [fst snd].
    destruct (H c' x' (or_intror Iz)). apply (R_weaken _ (lv x')); [apply R_ref|]; assumption.
Qed.

(** ** A project *)
Definition sound_fields : list (string * fdef) :=
  [("revenue", Fdef KDim [TAtom "o.revenue"] "o_revenue");
   ("cost", Fdef KDim [TAtom "o.cost"] "o_cost");
   ("profit", Fdef KDim [TRef "revenue"; TOp (OAdd "-"); TRef "cost"] "o_profit");
   ("margin", Fdef KDim [TRef "profit"; TOp (OAdd "-"); TAtom "o.fee"] "o_margin");
   ("flagged", Fdef KDim [TAtom "o.vip"; TOp OOr; TAtom "o.new"] "o_flagged");
   ("total", Fdef (KAgg ["SUM"]) [TRef "margin"] "o_total");
   ("n", Fdef (KAgg ["COUNT"; "DISTINCT"]) [TAtom "o.id"] "o_n");
   ("per_order", Fdef KNumber [TRef "total"; TOp (OMul "/"); TRef "n"] "o_per_order");
   ("gain", Fdef KNumber [TRef "per_order"; TOp (OAdd "-"); TAtom "1"] "o_gain");
   ("double_gain", Fdef KNumber [TAtom "2"; TOp (OMul "*"); TRef "gain"] "o_double_gain")].
Definition other_fields : list (string * fdef) :=
  [("half", Fdef KDim [TRef "profit"; TOp (OMul "/"); TAtom "2"] "o_half");
   ("total_half", Fdef (KAgg ["SUM"]) [TRef "profit"; TOp (OMul "/"); TAtom "2"] "o_total_half");
   ("largest", Fdef (KAgg ["MAX"]) [TRef "total"] "o_largest");
   ("flagged_total", Fdef (KAgg ["SUM"]) (filtered [(CTrue, "flagged"); (CCmp ">" "5", "cost")] [TRef "revenue"]) "o_flagged_total")].
Definition sound_shop (x : string) : option fdef := assoc x sound_fields.
Definition shop (x : string) : option fdef := assoc x (sound_fields ++ other_fields).
Definition shop_levels (x : string) : nat :=
  if mem x ["profit"; "margin"] then 5 else if mem x ["flagged"] then 1 else 7.

Lemma read_atom : forall lv n s, n <= 7 -> R lv n [TAtom s] (EAtom s).
Proof. intros. eapply R_weaken; [apply R_atom | assumption]. Qed.
Lemma read_ref : forall lv n x, n <= lv x -> lv x <= 7 -> R lv n [TRef x] (ERef x).
Proof. intros. eapply R_weaken; [apply R_ref; assumption | assumption]. Qed.
Lemma read_bin : forall lv n o l a r b, R lv (prec o) l a -> R lv (S (prec o)) r b -> n <= prec o -> R lv n (l ++ TOp o :: r) (EBin o a b).
Proof. intros. eapply R_weaken; [apply R_bin; eassumption | assumption]. Qed.
Ltac leaf := first [apply read_atom; cbn; lia | apply read_ref; cbn; lia].
Ltac read :=
  match goal with
  | |- R ?lv ?n [?a; TOp ?o; ?b] _ => eapply (read_bin lv n o [a] _ [b]); [leaf | leaf | cbn; lia]
  | |- R ?lv ?n [?a; TOp ?o; ?b; TOp ?o'; ?c] (EBin ?o' (EBin _ _ _) _) =>
      eapply (read_bin lv n o' [a; TOp o; b] _ [c]); [read | leaf | cbn; lia]
  | |- R ?lv ?n [?a; TOp ?o; ?b; TOp ?o'; ?c] _ => eapply (read_bin lv n o [a] _ [b; TOp o'; c]); [leaf | read | cbn; lia]
  | _ => leaf
  end.

Lemma sound_shop_levelled : levelled sound_shop shop_levels.
Proof.
  intros y d P K. apply assoc_In in P. cbn [In sound_fields] in P.
  repeat (destruct P as [P|P]); try contradiction; injection P as <- <-; cbn [f_kind f_sql] in *; try congruence;
    (split; [eexists; read | intros z Z; cbn [In] in Z; repeat (destruct Z as [Z|Z]); try contradiction; try discriminate Z;
                              injection Z as <-; eexists; split; reflexivity]).
Qed.
(** What its fields mean; the measure of type number has brackets where they are needed. *)
Ltac meaning := eexists; eexists; eexists; split; [reflexivity | split; [cbn [f_sql]; unfold reads; read | split; [| reflexivity]]]; cbn [f_kind].
Example ex_profit : means_to shop 2 "profit" (EBin (OAdd "-") (EAtom "o.revenue") (EAtom "o.cost")).
Proof. meaning. constructor; constructor; meaning; constructor. Qed.
Example ex_double_gain :
  means sound_shop "double_gain"
    (EBin (OMul "*") (EAtom "2")
       (EBin (OAdd "-")
          (EBin (OMul "/")
             (ECall "SUM" (EBin (OAdd "-") (EBin (OAdd "-") (EAtom "o.revenue") (EAtom "o.cost")) (EAtom "o.fee")))
             (ECall "COUNT" (ECall "DISTINCT" (EAtom "o.id"))))
          (EAtom "1"))) /\
  exists t, full_text sound_shop 9 "double_gain" = Ok t.
Proof.
  split; [|eexists; reflexivity]. exists 9. cbn [means_to].
  meaning. constructor; [constructor|]. constructor.
  meaning. constructor; [|constructor]. constructor.
  meaning. constructor; constructor.
  - eexists; eexists; eexists. split; [reflexivity|]. split; [cbn [f_sql]; unfold reads; read|]. split; [|cbn [f_kind fold_right]; reflexivity].
    constructor. meaning. constructor; [|constructor]. constructor. meaning. constructor; constructor; meaning; constructor.
  - eexists; eexists; eexists. split; [reflexivity|]. split; [cbn [f_sql]; unfold reads; read|]. split; [|cbn [f_kind fold_right]; reflexivity]. constructor.
Qed.

(** A dimension that refers to a measure of type number, one that refers to nothing known, and one that refers to itself *)
Example C88_errors_example :
  let p x := assoc x ([("a", Fdef KDim [TRef "per_order"] "a"); ("b", Fdef KDim [TRef "nothing"] "b"); ("c", Fdef KDim [TRef "c"] "c")] ++ sound_fields) in
  full_text p 9 "a" = Err QueryError /\ full_text p 9 "b" = Err AccessDenied /\ full_text p 9 "c" = Err RecursionError.
Proof. repeat split. Qed.

(** A row of the shop, and functions that change nothing *)
Definition row1 (s : string) : Z :=
  (if String.eqb s "o.revenue" then 10 else if String.eqb s "o.cost" then 4 else if String.eqb s "2" then 2 else
  if String.eqb s "5" then 5 else if String.eqb s "o.vip" then 1 else if String.eqb s "o.new" then 1 else 0)%Z.
Definition same (f : string) (z : Z) : Z := z.

(** Halving the profit, defined as the revenue less the cost, takes the whole revenue and half of the cost: the text
    of the dimension referred to is put in without brackets. *)
Theorem C88_dimension_refuted : exists p fuel x t e e' row,
  full_text p fuel x = Ok t /\ means p x e /\ reads t e' /\ value row same e <> value row same e'.
Proof.
  exists shop, 9, "half". do 4 eexists. split; [reflexivity|]. split; [|split].
  - exists 9. cbn [means_to]. meaning. constructor; [|constructor]. constructor.
    meaning. constructor; constructor; meaning; constructor.
  - unfold reads.
    apply (read_bin (fun _ => 7) 0 (OAdd "-") [TAtom "o.revenue"] (EAtom "o.revenue") [TAtom "o.cost"; TOp (OMul "/"); TAtom "2"] (EBin (OMul "/") (EAtom "o.cost") (EAtom "2"))); [leaf | read | cbn; lia].
  - instantiate (1 := row1). vm_compute. discriminate.
Qed.
(** The profit, a difference, compared with the same difference written as the identifier's sql: both bind tightly enough. *)
Example C88_identifier_example : exists t, on_text shop 9 (identifier_on (identifier_clause None "profit") (identifier_clause (Some [TRef "revenue"; TOp (OAdd "-"); TRef "cost"]) "profit")) = Ok t /\
  reads t (EBin (OCmp "=") (EBin (OAdd "-") (EAtom "o.revenue") (EAtom "o.cost")) (EBin (OAdd "-") (EAtom "o.revenue") (EAtom "o.cost"))).
Proof.
  assert (Q : R (fun _ => 7) 5 [TAtom "o.revenue"; TOp (OAdd "-"); TAtom "o.cost"] (EBin (OAdd "-") (EAtom "o.revenue") (EAtom "o.cost"))) by read.
  destruct (C88_identifier shop 9 None "profit" (Some [TRef "revenue"; TOp (OAdd "-"); TRef "cost"]) "profit"
    _ _ _ _ eq_refl eq_refl (R_weaken _ _ 0 _ _ Q (Nat.le_0_l 5)) (R_weaken _ _ 0 _ _ Q (Nat.le_0_l 5)))
    as [t [T H]]. exists t. split; [exact T|]. apply H. split; [apply (R_weaken _ 5); [exact Q | lia] | exact Q].
Qed.
(** A join on the revenue less the profit of an order: the profit, a difference itself, is taken apart. *)
Theorem C88_join_refuted : exists p fuel sql t e0 e e' row,
  on_text p fuel sql = Ok t /\ reads sql e0 /\ inst (means p) e0 e /\ reads t e' /\ value row same e <> value row same e'.
Proof.
  exists shop, 9, [TAtom "o.revenue"; TOp (OAdd "-"); TRef "profit"; TOp (OCmp "="); TAtom "o.cost"].
  eexists. eexists. eexists. eexists. exists row1. split; [reflexivity|]. split; [|split; [|split]].
  - unfold reads.
    apply (read_bin (fun _ => 7) 0 (OCmp "=") [TAtom "o.revenue"; TOp (OAdd "-"); TRef "profit"] (EBin (OAdd "-") (EAtom "o.revenue") (ERef "profit")) [TAtom "o.cost"] (EAtom "o.cost")); [read | leaf | cbn; lia].
  - constructor; [constructor; [constructor|]|constructor]. constructor. exists 9. cbn [means_to].
    meaning. constructor; constructor; meaning; constructor.
  - unfold reads.
    apply (read_bin (fun _ => 7) 0 (OCmp "=") [TAtom "o.revenue"; TOp (OAdd "-"); TAtom "o.revenue"; TOp (OAdd "-"); TAtom "o.cost"]
      (EBin (OAdd "-") (EBin (OAdd "-") (EAtom "o.revenue") (EAtom "o.revenue")) (EAtom "o.cost")) [TAtom "o.cost"] (EAtom "o.cost")); [| leaf | cbn; lia].
    apply (read_bin (fun _ => 7) 4 (OAdd "-") [TAtom "o.revenue"; TOp (OAdd "-"); TAtom "o.revenue"] (EBin (OAdd "-") (EAtom "o.revenue") (EAtom "o.revenue")) [TAtom "o.cost"] (EAtom "o.cost")); [read | leaf | cbn; lia].
  - vm_compute. discriminate.
Qed.
(** The same inside a sum. *)
Theorem C88_aggregate_refuted : exists p fuel x t e e' row,
  full_text p fuel x = Ok t /\ means p x e /\ reads t e' /\ value row same e <> value row same e'.
Proof.
  exists shop, 9, "total_half". do 4 eexists. split; [reflexivity|]. split; [|split].
  - exists 9. cbn [means_to]. eexists; eexists; eexists. split; [reflexivity|]. split; [cbn [f_sql]; unfold reads; read|].
    split; [|cbn [f_kind fold_right]; reflexivity]. constructor; [|constructor]. constructor.
    meaning. constructor; constructor; meaning; constructor.
  - unfold reads. apply (R_weaken _ 7); [|lia].
    apply (R_call (fun _ => 7) "SUM" [TAtom "o.revenue"; TOp (OAdd "-"); TAtom "o.cost"; TOp (OMul "/"); TAtom "2"]).
    apply (read_bin (fun _ => 7) 0 (OAdd "-") [TAtom "o.revenue"] (EAtom "o.revenue") [TAtom "o.cost"; TOp (OMul "/"); TAtom "2"] (EBin (OMul "/") (EAtom "o.cost") (EAtom "2"))); [leaf | read | cbn; lia].
  - instantiate (1 := row1). vm_compute. discriminate.
Qed.
(** An aggregate that refers to an aggregate is of what that one is of: the largest total is the largest single
    amount. *)
Theorem C88_measure_refuted : exists p fuel x t e e',
  full_text p fuel x = Ok t /\ means p x e /\ reads t e' /\
  e = ECall "MAX" (ECall "SUM" (EBin (OAdd "-") (EBin (OAdd "-") (EAtom "o.revenue") (EAtom "o.cost")) (EAtom "o.fee"))) /\
  e' = ECall "MAX" (EBin (OAdd "-") (EBin (OAdd "-") (EAtom "o.revenue") (EAtom "o.cost")) (EAtom "o.fee")).
Proof.
  exists shop, 9, "largest". do 3 eexists. split; [reflexivity|]. split; [|split; [|split; reflexivity]].
  - exists 9. cbn [means_to]. eexists; eexists; eexists. split; [reflexivity|]. split; [cbn [f_sql]; unfold reads; read|].
    split; [|cbn [f_kind fold_right]; reflexivity]. constructor.
    eexists; eexists; eexists. split; [reflexivity|]. split; [cbn [f_sql]; unfold reads; read|].
    split; [|cbn [f_kind fold_right]; reflexivity]. constructor.
    meaning. constructor; [|constructor]. constructor. meaning. constructor; constructor; meaning; constructor.
  - unfold reads. apply (R_weaken _ 7); [|lia].
    apply (R_call (fun _ => 7) "MAX" [TAtom "o.revenue"; TOp (OAdd "-"); TAtom "o.cost"; TOp (OAdd "-"); TAtom "o.fee"]). read.
Qed.
(** A filter asking that a dimension defined with OR is true does not hold together with the other conditions: rows
    that the others exclude are kept. *)
Theorem C88_conditions_refuted : exists t e c2 t2 e2 e' row,
  reads t e /\ reads t2 e2 /\ reads (conds_text [(CTrue, t); (c2, t2)]) e' /\
  value row same (cond_means c2 e2) = 0%Z /\ value row same e' = 1%Z.
Proof.
  exists [TAtom "o.vip"; TOp OOr; TAtom "o.new"], (EBin OOr (EAtom "o.vip") (EAtom "o.new")), (CCmp "=" "5"),
    [TAtom "o.region"], (EAtom "o.region").
  exists (EBin OOr (EAtom "o.vip") (EBin OAnd (EAtom "o.new") (EBin (OCmp "=") (EAtom "o.region") (EAtom "5")))), row1.
  split; [unfold reads; read|]. split; [unfold reads; read|]. split; [|split; reflexivity].
  unfold reads. apply (read_bin (fun _ => 7) 0 OOr [TAtom "o.vip"]); [leaf | | cbn; lia].
  cbn [fst snd cond_text app]. apply (read_bin (fun _ => 7) 2 OAnd [TAtom "o.new"]); [leaf | read | cbn; lia].
Qed.
(** Asking that it is false keeps rows where it is true. *)
Theorem C88_false_refuted : exists t e e' row,
  reads t e /\ reads (conds_text [(CFalse, t)]) e' /\ value row same e = 1%Z /\ value row same e' = 1%Z.
Proof.
  exists [TAtom "o.vip"; TOp OOr; TAtom "o.new"], (EBin OOr (EAtom "o.vip") (EAtom "o.new")),
    (EBin OOr (ENot (EAtom "o.vip")) (EAtom "o.new")), row1.
  split; [unfold reads; read|]. split; [|split; reflexivity].
  unfold reads. apply (read_bin (fun _ => 7) 0 OOr [TNot; TAtom "o.vip"]); [|leaf | cbn; lia].
  apply (R_weaken _ 3); [|cbn; lia]. apply (R_not _ [TAtom "o.vip"]). leaf.
Qed.
(** And a measure filtered on it is taken over rows its other conditions exclude. *)
Theorem C88_measure_filters_refuted : exists p fuel x t e e' row,
  full_text p fuel x = Ok t /\ means p x e /\ reads t e' /\ value row same e = 0%Z /\ value row same e' = 10%Z.
Proof.
  exists shop, 9, "flagged_total". do 4 eexists. split; [reflexivity|]. split; [|split].
  - exists 9. cbn [means_to]. eexists; eexists; eexists. split; [reflexivity|].
    split; [cbn [f_sql]; unfold reads; apply (R_weaken _ 7); [|lia]; apply (C88_measure_filters_partial (fun _ => 7)); [|leaf]|].
    { intros c x [E | [E | []]]; injection E as <- <-; cbn; lia. }
    split; [|cbn [f_kind fold_right]; reflexivity]. constructor; [constructor; [constructor | constructor; constructor] | constructor].
    + meaning. constructor; constructor.
    + meaning. constructor.
    + meaning. constructor.
  - unfold reads. apply (R_weaken _ 7); [|lia].
    apply (R_call (fun _ => 7) "SUM" (TCase :: [TAtom "o.vip"; TOp OOr; TAtom "o.new"; TOp OAnd; TAtom "o.cost"; TOp (OCmp ">"); TAtom "5"] ++ TThen :: [TAtom "o.revenue"] ++ [TEnd])).
    apply (R_weaken _ 7); [|lia]. apply R_case; [|leaf].
    apply (read_bin (fun _ => 7) 0 OOr [TAtom "o.vip"] (EAtom "o.vip") _ (EBin OAnd (EAtom "o.new") (EBin (OCmp ">") (EAtom "o.cost") (EAtom "5")))); [leaf | | cbn; lia].
    apply (read_bin (fun _ => 7) 2 OAnd [TAtom "o.new"]); [leaf | read | cbn; lia].
  - instantiate (1 := row1). split; vm_compute; reflexivity.
Qed.

(** The hypotheses of the theorems met: conditions on dimensions that bind tightly enough, and a merged result. *)
Example ex_conditions : reads (conds_text [(CCmp ">" "5", [TAtom "a"; TOp (OAdd "-"); TAtom "b"]); (CLower "LIKE" "'x'", [TAtom "c"; TOp OOr; TAtom "d"])])
  (EBin OAnd (EBin (OCmp ">") (EBin (OAdd "-") (EAtom "a") (EAtom "b")) (EAtom "5"))
     (EBin (OCmp "LIKE") (ECall "LOWER" (EBin OOr (EAtom "c") (EAtom "d"))) (ECall "LOWER" (EAtom "'x'")))).
Proof.
  apply (R_weaken _ 2); [|lia].
  apply (C88_conditions_partial (fun _ => 7) (CCmp ">" "5") [TAtom "a"; TOp (OAdd "-"); TAtom "b"] (EBin (OAdd "-") (EAtom "a") (EAtom "b"))
    [(CLower "LIKE" "'x'", [TAtom "c"; TOp OOr; TAtom "d"], EBin OOr (EAtom "c") (EAtom "d"))]); [cbn [needs]; read|].
  constructor; [cbn [fst snd needs]; read | constructor].
Qed.
Example ex_exact : raw_text shop 8 "margin" = Ok [TAtom "o.revenue"; TOp (OAdd "-"); TAtom "o.cost"; TOp (OAdd "-"); TAtom "o.fee"] /\
  reads [TRef "profit"; TOp (OAdd "-"); TAtom "o.fee"] (EBin (OAdd "-") (ERef "profit") (EAtom "o.fee")) /\
  R (fun _ => 5) 0 [TRef "profit"; TOp (OAdd "-"); TAtom "o.fee"] (EBin (OAdd "-") (ERef "profit") (EAtom "o.fee")) /\
  raw_text shop 8 "total" = raw_text shop 8 "margin" /\ reached shop "total" "cost".
Proof.
  split; [reflexivity|]. split; [unfold reads; read|]. split; [read|]. split; [reflexivity|].
  eapply reached_step with (y := "margin"); [reflexivity | now left|]. eapply reached_step with (y := "profit"); [reflexivity | now left|].
  eapply reached_step with (y := "cost"); [reflexivity | right; right; now left|]. apply reached_self.
Qed.
Example ex_and : reads (and_all [TAtom "a"; TOp OAnd; TAtom "b"] [[TNot; TAtom "c"]]) (all_mean (EBin OAnd (EAtom "a") (EAtom "b")) [ENot (EAtom "c")]).
Proof.
  apply C88_and; [unfold reads; read | | discriminate | split; [read|]]; (constructor; [|constructor]).
  - apply (R_weaken _ 3); [apply (R_not _ [TAtom "c"]); leaf | lia].
  - apply (R_not _ [TAtom "c"]); leaf.
Qed.
Example ex_merged : strict_text shop 9 "double_gain"
  = Ok [TAtom "2"; TOp (OMul "*"); TOpen; TOpen; TAtom "o_total"; TOp (OMul "/"); TAtom "o_n"; TClose; TOp (OAdd "-"); TAtom "1"; TClose].
Proof. reflexivity. Qed.

Print Assumptions C88_unique.
Print Assumptions C88_one_meaning.
Print Assumptions C88_number.
Print Assumptions C88_reads_partial.
Print Assumptions C88_dimension_partial.
Print Assumptions C88_refused.
Print Assumptions C88_exact.
Print Assumptions C88_condition.
Print Assumptions C88_join.
Print Assumptions C88_identifier.
Print Assumptions C88_join_refuted.
Print Assumptions C88_errors.
Print Assumptions C88_merged_errors.
Print Assumptions C88_and.
Print Assumptions C88_conditions.
Print Assumptions C88_tier.
Print Assumptions C88_merged.
Print Assumptions C88_conditions_partial.
Print Assumptions C88_measure_filters_partial.
Print Assumptions C88_dimension_refuted.
Print Assumptions C88_aggregate_refuted.
Print Assumptions C88_measure_refuted.
Print Assumptions C88_conditions_refuted.
Print Assumptions C88_false_refuted.
Print Assumptions C88_measure_filters_refuted.
