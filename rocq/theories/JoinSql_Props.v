(** C66: the JOIN that is written between two views. *)
From Coq Require Import List String Ascii Bool Arith Lia.
From Verif Require Import PyBase PyStr PySort PyRefs PyReplace PyGraph PyList JoinGraph_Model JoinGraph_Spec JoinGraph_Proofs JoinGraph_Props Subst_Props JoinSql_Model JoinSql_Proofs.
Import ListNotations.
Local Open Scope string_scope.
Local Open Scope list_scope.

(** ** Specification *)
(** the reference [n] names column [c] of view [v] *)
Definition dotless (s : string) : Prop := has_char dot s = false.
Inductive names : string -> string -> string -> Prop :=
| named_two v c : dotless v -> dotless c -> names (v ++ String dot c)%string v c
| named_three e v c : dotless e -> dotless v -> dotless c -> names (e ++ String dot (v ++ String dot c))%string v c.
Section Spec.
  Variable E : jenv.
  (** the SQL put in place of a reference *)
  Definition ref_sql (n t : string) : Prop := exists v c w, names n v c /\ je_view E v = Ok w /\ je_field E c w = Ok (Ok t).
  Definition seg_sql (s : seg) (t : string) : Prop := match s with Text u => t = u | Ref n => ref_sql n t end.
  Definition written (segs : list seg) (t : string) : Prop := exists parts, Forall2 seg_sql segs parts /\ t = cat parts.
  (** a reference that cannot be followed, and how it is reported *)
  Definition broken (n : string) (r : jrule) : Prop :=
    match r with
    | JNoView f => f = n /\ forall v c, ~ names n v c
    | JView v => exists c e, names n v c /\ je_view E v = Err e
    | JField v c => exists w e, names n v c /\ je_view E v = Ok w /\ je_field E c w = Err e
    end.
End Spec.
(** the kind declared by the text of join_type *)
Definition declared_kind (t : option string) : kind :=
  match t with Some "inner" => KInner | Some "full_outer" => KOuter | Some "cross" => KCross | _ => KLeft end.
(** the clause of an identifier in a view: its SQL with names of the view made full, or its own name *)
Definition in_view (v : string) (s : seg) : seg :=
  match s with Text t => Text t | Ref n => if String.eqb n "TABLE" then Text v else if has_char dot n then Ref n else Ref (v ++ String dot n)%string end.
Definition clause_of (i : jident) (v : string) (segs : list seg) : Prop :=
  (ji_sql i = None /\ segs = [Ref (v ++ String dot (ji_name i))%string])
  \/ exists s0, ji_sql i = Some (sql_of s0) /\ Forall good_seg s0 /\ segs = map (in_view v) s0.
Definition good_name (s : string) : Prop := plain s = true /\ has_char rbrace s = false /\ has_char newline s = false.

(** ** References *)
Lemma names_parts n v c : names n v c -> exists e, field_name_parts n = (e, Some v, c).
Proof. intros [v' c' A B|e v' c' X A B]; [exists None; apply field_name_parts_qualified; assumption|exists (Some e); apply field_name_parts_full; assumption]. Qed.
Lemma parts_names n e v c : field_name_parts n = (e, Some v, c) -> names n v c.
Proof.
  unfold field_name_parts. pose proof (split_char_join dot n) as J. pose proof (split_char_pieces dot n) as P. destruct (Nat.eqb (count_char dot n) 2).
  - destruct (split_char dot n) as [|x [|y [|z [|? ?]]]]; try discriminate. intros H. injection H as <- <- <-. cbn [join_with] in J. rewrite <- J.
    assert (X : (x ++ String dot "" ++ y ++ String dot "" ++ z)%string = (x ++ String dot (y ++ String dot z))%string) by (rewrite ?append_assoc; reflexivity). rewrite X. constructor; unfold dotless; apply P; cbn; auto.
  - destruct (Nat.eqb (count_char dot n) 1); [|discriminate]. destruct (split_char dot n) as [|x [|y [|z ?]]]; try discriminate. intros H. injection H as <- <- <-. cbn [join_with] in J. rewrite <- J.
    assert (X : (x ++ String dot "" ++ y)%string = (x ++ String dot y)%string) by (rewrite ?append_assoc; reflexivity). rewrite X. constructor; unfold dotless; apply P; cbn; auto.
Qed.
Lemma names_unique n v c v' c' : names n v c -> names n v' c' -> v = v' /\ c = c'.
Proof. intros A B. apply names_parts in A. apply names_parts in B. destruct A as [e A], B as [e' B]. rewrite A in B. injection B as _ <- <-. auto. Qed.

Section Replace.
  Variable E : jenv.
  Lemma ref_sql_fun n t t' : ref_sql E n t -> ref_sql E n t' -> t = t'.
  Proof. intros (v & c & w & A & B & C) (v' & c' & w' & A' & B' & C'). destruct (names_unique _ _ _ _ _ A A') as [<- <-]. congruence. Qed.
  Lemma replace_on_step f r sql t : ref_sql E f t -> replace_on E (f :: r) sql = replace_on E r (replace (placeholder f) t sql).
  Proof. intros (v & c & w & A & B & C). cbn [replace_on]. apply names_parts in A. destruct A as [e A]. rewrite A, B. cbn [bind]. rewrite C. reflexivity. Qed.
  Lemma replace_on_inv f r sql t : replace_on E (f :: r) sql = Ok (Some t) -> exists u, ref_sql E f u.
  Proof.
    cbn [replace_on]. destruct (field_name_parts f) as [[e v] c] eqn:P. destruct v as [v|]; [|discriminate]. intros H. apply bind_ok in H. destruct H as [w [A H]]. apply bind_ok in H. destruct H as [fo [B H]]. apply bind_ok in H. destruct H as [u [C H]].
    exists u, v, c, w. split; [exact (parts_names _ _ _ _ P)|]. split; [exact A|]. rewrite B. congruence.
  Qed.
  Lemma replace_on_total l : (forall n, In n l -> exists u, ref_sql E n u) -> forall sql, exists t, replace_on E l sql = Ok (Some t).
  Proof. induction l as [|f l IH]; intros H sql; [eexists; reflexivity|]. destruct (H f (or_introl eq_refl)) as [u U]. rewrite (replace_on_step f l sql u U). apply IH. intros n I. apply H. now right. Qed.
  Lemma ref_good segs n : Forall good_seg segs -> In n (refs_of segs) -> good_name n.
  Proof. intros G R. unfold refs_of in R. apply in_flat_map in R. destruct R as [s [S X]]. rewrite Forall_forall in G. specialize (G s S). destruct s as [t|m]; [destruct X|]. destruct X as [<-|[]]. exact G. Qed.
  Lemma replace_on_spec segs : Forall good_seg segs -> (forall n t, In n (refs_of segs) -> ref_sql E n t -> plain t = true) ->
    forall l done t, incl l (refs_of segs) -> (forall m u, assoc m done = Some u -> ref_sql E m u /\ In m (refs_of segs)) -> replace_on E l (now done segs) = Ok (Some t) ->
    exists done', t = now done' segs /\ (forall m u, assoc m done' = Some u -> ref_sql E m u) /\ forall m, In m l \/ assoc m done <> None -> assoc m done' <> None.
  Proof.
    intros G PV l. induction l as [|f l IH]; intros done t I D H.
    - cbn [replace_on] in H. injection H as <-. exists done. split; [reflexivity|]. split; [intros m u A; apply (D m u A)|]. intros m [[]|A]. exact A.
    - destruct (replace_on_inv f l _ t H) as [u U]. rewrite (replace_on_step f l _ u U) in H. assert (R : In f (refs_of segs)) by (apply I; now left). destruct (ref_good segs f G R) as [P [B _]].
      assert (PD : forall m w, assoc m done = Some w -> plain w = true) by (intros m w A; destruct (D m w A) as [X Y]; exact (PV m w Y X)).
      destruct (assoc f done) as [w|] eqn:A.
      + rewrite replace_done in H; eauto. destruct (IH done t (fun x X => I x (or_intror X)) D H) as (done' & X & Y & Z). exists done'. split; [exact X|]. split; [exact Y|]. intros m [[<-|J]|J]; apply Z; auto. right. congruence.
      + rewrite replace_now in H; auto. destruct (IH ((f, u) :: done) t (fun x X => I x (or_intror X))) as (done' & X & Y & Z); [|exact H|].
        * intros m w. cbn [assoc]. destruct (String.eqb_spec m f) as [->|NE]; [intros Q; injection Q as <-; auto|apply D].
        * exists done'. split; [exact X|]. split; [exact Y|]. intros m K. apply Z. cbn [assoc]. destruct (String.eqb_spec m f) as [->|NE]; [right; discriminate|]. destruct K as [[K|K]|K]; [congruence|auto|auto].
  Qed.
  Lemma now_nil segs : now [] segs = sql_of segs.
  Proof. unfold now, sql_of. f_equal. Qed.
  Lemma written_fun segs t t' : written E segs t -> written E segs t' -> t = t'.
  Proof.
    intros (p & F & ->) (p' & F' & ->). f_equal. revert p' F'. induction F as [|s a segs p A F IH]; intros p' F'; inversion F' as [|? b ? q B G]; subst; [reflexivity|]. rewrite (IH _ G). f_equal. destruct s as [u|n]; cbn [seg_sql] in *; [congruence|exact (ref_sql_fun n a b A B)].
  Qed.
  Lemma written_refs segs t : written E segs t -> forall n, In n (refs_of segs) -> exists u, ref_sql E n u.
  Proof.
    intros (p & F & _) n I. unfold refs_of in I. apply in_flat_map in I. destruct I as (s & S & X). destruct s as [u|m]; [destruct X|]. destruct X as [<-|[]]. destruct (Forall2_In_l _ _ _ F (Ref m) S) as (u & _ & K). exists u. exact K.
  Qed.

  (** C66: the condition written is the declared one with each reference replaced by the SQL of the field it names *)
  Theorem C66_condition segs t : Forall good_seg segs -> (forall n u, In n (refs_of segs) -> ref_sql E n u -> plain u = true) ->
    (replaced_sql_on E (sql_of segs) = Ok (Some t) <-> written E segs t).
  Proof.
    intros G PV. unfold replaced_sql_on. rewrite (refs_sql segs G).
    assert (FW : forall t, replace_on E (refs_of segs) (sql_of segs) = Ok (Some t) -> written E segs t).
    { intros t' H. rewrite <- now_nil in H. destruct (replace_on_spec segs G PV (refs_of segs) [] t' (incl_refl _)) as (done & -> & Y & Z); [intros m u X; discriminate X|exact H|]. exists (map (part done) segs). split; [|reflexivity].
      assert (K : forall s, In s segs -> seg_sql E s (part done s)).
      { intros s S. destruct s as [u|n]; cbn [seg_sql part]; [reflexivity|]. assert (R : In n (refs_of segs)) by (unfold refs_of; apply in_flat_map; exists (Ref n); split; [exact S|now left]). specialize (Z n (or_introl R)). destruct (assoc n done) as [u|] eqn:A; [|contradiction]. exact (Y n u A). }
      clear - K. induction segs as [|s segs IH]; cbn [map]; constructor; [apply K; now left|apply IH; intros x X; apply K; now right]. }
    split; [apply FW|]. intros W. destruct (replace_on_total (refs_of segs) (written_refs segs t W) (sql_of segs)) as [t' H]. rewrite H. do 2 f_equal. exact (written_fun segs t' t (FW t' H) W).
  Qed.
  (** ... and nothing of a reference is left in it *)
  Theorem C66_no_reference_left segs t : Forall good_seg segs -> (forall n u, In n (refs_of segs) -> ref_sql E n u -> plain u = true) ->
    replaced_sql_on E (sql_of segs) = Ok (Some t) -> fields_to_replace t = [].
  Proof.
    intros G PV H. apply C66_condition in H; auto. destruct H as (parts & F & ->). assert (P : plain (cat parts) = true).
    { apply plain_cat. clear - F G PV. assert (K : forall n u, In (Ref n) segs -> ref_sql E n u -> plain u = true) by (intros n u I; apply PV; unfold refs_of; apply in_flat_map; exists (Ref n); split; [exact I|now left]). clear PV.
      induction F as [|s a segs p A F IH]; [constructor|]. inversion G as [|? ? G1 G2]. subst. constructor; [destruct s as [u|n]; cbn [seg_sql good_seg] in *; [congruence|apply (K n); [now left|exact A]]|]. apply IH; [exact G2|]. intros n u I. apply K. now right. }
    replace (cat parts) with (cat parts ++ "")%string by apply append_nil_r. rewrite refs_text by exact P. reflexivity.
  Qed.

  (** C66: validation reports exactly the references that cannot be followed *)
  Lemma reference_errors_iff n r : In r (reference_errors E n) <-> broken E n r.
  Proof.
    unfold reference_errors, broken. destruct (field_name_parts n) as [[e v] c] eqn:P. destruct v as [v|].
    - pose proof (parts_names _ _ _ _ P) as N. assert (U : forall v' c', names n v' c' -> v' = v /\ c' = c) by (intros v' c' X; exact (names_unique _ _ _ _ _ X N)). destruct (je_view E v) as [w|x] eqn:A.
      + destruct (je_field E c w) as [fo|x] eqn:B.
        * split; [intros []|]. destruct r as [f|v'|v' c'].
          -- intros [_ X]. destruct (X v c N).
          -- intros (c' & y & X & Y). destruct (U _ _ X) as [-> ->]. congruence.
          -- intros (w' & y & X & Y & Z). destruct (U _ _ X) as [-> ->]. congruence.
        * split; [intros [<-|[]]; eauto|]. destruct r as [f|v'|v' c'].
          -- intros [_ X]. destruct (X v c N).
          -- intros (c' & y & X & Y). destruct (U _ _ X) as [-> ->]. congruence.
          -- intros (w' & y & X & _). destruct (U _ _ X) as [-> ->]. now left.
      + split; [intros [<-|[]]; eauto|]. destruct r as [f|v'|v' c'].
        * intros [_ X]. destruct (X v c N).
        * intros (c' & y & X & Y). destruct (U _ _ X) as [-> ->]. now left.
        * intros (w' & y & X & Y & Z). destruct (U _ _ X) as [-> ->]. congruence.
    - assert (N : forall v' c', ~ names n v' c') by (intros v' c' X; apply names_parts in X; destruct X as [e' X]; congruence). split; [intros [<-|[]]; auto|]. destruct r as [f|v'|v' c'].
      + intros [-> _]. now left.
      + intros (c' & y & X & _). destruct (N _ _ X).
      + intros (w' & y & X & _). destruct (N _ _ X).
  Qed.
  Theorem C66_errors_exact segs r : Forall good_seg segs -> (In r (join_errors E (sql_of segs)) <-> exists n, In n (refs_of segs) /\ broken E n r).
  Proof.
    intros G. unfold join_errors. rewrite (refs_sql segs G). destruct (String.eqb_spec (sql_of segs) "") as [X|_].
    - pose proof (refs_sql segs G) as R. rewrite X in R. rewrite <- R. split; [intros []|intros (n & [] & _)].
    - rewrite in_flat_map. split; intros (n & I & K); exists n; (split; [exact I|]); apply reference_errors_iff; exact K.
  Qed.
  (** a join without errors has its condition written, unless the SQL of a field cannot be made; one with errors never has *)
  Theorem C66_validated_condition segs : Forall good_seg segs -> (forall n u, In n (refs_of segs) -> ref_sql E n u -> plain u = true) ->
    ((exists t, replaced_sql_on E (sql_of segs) = Ok (Some t)) <->
     join_errors E (sql_of segs) = [] /\ forall n v c w fo, In n (refs_of segs) -> names n v c -> je_view E v = Ok w -> je_field E c w = Ok fo -> exists t, fo = Ok t).
  Proof.
    intros G PV. split.
    - intros [t H]. apply C66_condition in H; auto. pose proof (written_refs segs t H) as R. split.
      + destruct (join_errors E (sql_of segs)) as [|r l] eqn:J; [reflexivity|]. exfalso. assert (I : In r (join_errors E (sql_of segs))) by (rewrite J; now left). apply C66_errors_exact in I; [|exact G]. destruct I as (n & I & B).
        destruct (R n I) as (u & v & c & w & N & V & F). destruct r as [f|v'|v' c']; cbn [broken] in B.
        * destruct B as [_ B]. exact (B v c N).
        * destruct B as (c' & e & N' & V'). destruct (names_unique _ _ _ _ _ N N') as [<- <-]. congruence.
        * destruct B as (w' & e & N' & V' & F'). destruct (names_unique _ _ _ _ _ N N') as [<- <-]. congruence.
      + intros n v c w fo I N V F. destruct (R n I) as (u & v' & c' & w' & N' & V' & F'). destruct (names_unique _ _ _ _ _ N N') as [<- <-]. exists u. congruence.
    - intros [J S]. unfold replaced_sql_on. rewrite (refs_sql segs G). apply replace_on_total. intros n I.
      assert (NB : forall r, ~ broken E n r) by (intros r B; assert (K : In r (join_errors E (sql_of segs))) by (apply C66_errors_exact; eauto); rewrite J in K; destruct K).
      destruct (field_name_parts n) as [[e v] c] eqn:P. destruct v as [v|].
      + pose proof (parts_names _ _ _ _ P) as N. destruct (je_view E v) as [w|x] eqn:V; [|exfalso; apply (NB (JView v)); exists c, x; auto]. destruct (je_field E c w) as [fo|x] eqn:F; [|exfalso; apply (NB (JField v c)); exists w, x; auto].
        destruct (S n v c w fo I N V F) as [t ->]. exists t, v, c, w. auto.
      + exfalso. apply (NB (JNoView n)). split; [reflexivity|]. intros v' c' X. apply names_parts in X. destruct X as [e' X]. congruence.
  Qed.
  (** a reference without a view loses the whole condition, without an error in the query *)
  Theorem C66_no_view_refuted n rest pre : (forall v c, ~ names n v c) -> Forall good_seg (Text pre :: Ref n :: rest) -> replaced_sql_on E (sql_of (Text pre :: Ref n :: rest)) = Ok None.
  Proof.
    intros NO G. unfold replaced_sql_on. rewrite (refs_sql _ G). cbn [refs_of flat_map app replace_on]. destruct (field_name_parts n) as [[e v] c] eqn:P. destruct v as [v|]; [destruct (NO v c); exact (parts_names _ _ _ _ P)|reflexivity].
  Qed.
End Replace.

(** ** The clauses of identifiers *)
Definition step (v n : string) (s : seg) : seg :=
  match s with Text t => Text t | Ref m => if String.eqb m n then in_view v (Ref m) else Ref m end.
Lemma good_in_view v s : good_name v -> good_seg s -> good_seg (in_view v s).
Proof.
  intros (A & B & C) G. destruct s as [t|n]; cbn [in_view]; [exact G|]. destruct (String.eqb n "TABLE"); [exact A|]. destruct (has_char dot n); [exact G|]. destruct G as (G1 & G2 & G3). cbn [good_seg]. unfold plain in *. rewrite !has_char_app. cbn [has_char].
  apply negb_true_iff in A, G1. rewrite A, B, C, G1, G2, G3. auto.
Qed.
Lemma good_step v n segs : good_name v -> Forall good_seg segs -> Forall good_seg (map (step v n) segs).
Proof. intros V G. induction G as [|s segs G F IH]; cbn [map]; constructor; [|exact IH]. destruct s as [t|m]; cbn [step]; [exact G|]. destruct (String.eqb m n); [now apply good_in_view|exact G]. Qed.
Lemma replace_step v n segs : good_name n -> Forall good_seg segs -> replace_reference v (sql_of segs) n = sql_of (map (step v n) segs).
Proof.
  intros (P & B & _) G. unfold replace_reference.
  assert (R : forall w, replace (placeholder n) w (sql_of segs) = now [(n, w)] segs) by (intros w; rewrite <- now_nil; apply replace_now; auto; intros m t X; discriminate X).
  assert (C : forall w, (forall m, m = n -> w = seg_text (in_view v (Ref m))) -> now [(n, w)] segs = sql_of (map (step v n) segs)).
  { intros w W. unfold now, sql_of. f_equal. rewrite map_map. apply map_ext. intros [t|m]; cbn [part step seg_text]; [reflexivity|]. cbn [assoc]. destruct (String.eqb_spec m n) as [->|]; [apply W; reflexivity|reflexivity]. }
  destruct (String.eqb_spec n "TABLE") as [->|NT]; cbn [negb andb].
  - rewrite R. apply C. intros m ->. reflexivity.
  - destruct (has_char dot n) eqn:D; cbn [negb].
    + unfold sql_of. f_equal. rewrite map_map. apply map_ext. intros [t|m]; cbn [step]; [reflexivity|]. destruct (String.eqb_spec m n) as [->|]; [|reflexivity]. cbn [in_view]. destruct (String.eqb_spec n "TABLE"); [contradiction|]. now rewrite D.
    + rewrite R. apply C. intros m ->. cbn [in_view]. destruct (String.eqb_spec n "TABLE"); [contradiction|]. rewrite D. reflexivity.
Qed.
Lemma step_done v n s : step v n (in_view v s) = in_view v s.
Proof.
  destruct s as [t|m]; cbn [in_view]; [reflexivity|]. destruct (String.eqb_spec m "TABLE"); [reflexivity|]. destruct (has_char dot m) eqn:D; cbn [step].
  - destruct (String.eqb m n); [|reflexivity]. cbn [in_view]. destruct (String.eqb_spec m "TABLE"); [contradiction|]. now rewrite D.
  - destruct (String.eqb (v ++ String dot m) n); [|reflexivity]. cbn [in_view]. assert (X : has_char dot (v ++ String dot m)%string = true) by (rewrite has_char_app; cbn [has_char]; rewrite Ascii.eqb_refl; cbn [orb]; apply orb_true_r).
    destruct (String.eqb_spec (v ++ String dot m)%string "TABLE") as [Y|]; [rewrite Y in X; discriminate X|]. now rewrite X.
Qed.
Lemma steps_in_view v l : forall s, (forall n, s = Ref n -> In n l) -> fold_left (fun s n => step v n s) l s = in_view v s.
Proof.
  assert (D : forall l s, fold_left (fun s n => step v n s) l (in_view v s) = in_view v s) by (induction l0 as [|n l0 IH]; intros s; cbn [fold_left]; [reflexivity|]; now rewrite step_done).
  induction l as [|n l IH]; intros s H; cbn [fold_left].
  - destruct s as [t|m]; [reflexivity|]. destruct (H m eq_refl).
  - destruct s as [t|m]; [cbn [step]; apply IH; discriminate|]. cbn [step]. destruct (String.eqb_spec m n) as [->|NE]; [apply D|]. apply IH. intros k X. injection X as <-. destruct (H m eq_refl) as [X|X]; [congruence|exact X].
Qed.
Lemma clause_text i v segs : good_name v -> clause_of i v segs -> identifier_join_clause i v = sql_of segs.
Proof.
  intros V [[S ->]|(s0 & S & G & ->)]; unfold identifier_join_clause; rewrite S.
  - unfold sql_of. cbn [map cat seg_text]. rewrite append_nil_r. reflexivity.
  - rewrite (refs_sql s0 G). assert (K : forall l segs, Forall good_seg segs -> (forall n, In n l -> good_name n) -> fold_left (replace_reference v) l (sql_of segs) = sql_of (map (fun s => fold_left (fun s n => step v n s) l s) segs)).
    { induction l as [|n l IH]; intros segs GS GL; cbn [fold_left]; [rewrite map_id; reflexivity|]. rewrite replace_step; [|apply GL; now left|exact GS]. rewrite IH; [|now apply good_step|intros m M; apply GL; now right]. rewrite map_map. reflexivity. }
    rewrite K; [|exact G|intros n I; exact (ref_good s0 n G I)]. f_equal. apply map_ext_in. intros s I. apply steps_in_view. intros n ->. unfold refs_of. apply in_flat_map. exists (Ref n). split; [exact I|now left].
Qed.
Lemma clause_good i v segs : good_name v -> good_name (ji_name i) -> clause_of i v segs -> Forall good_seg segs.
Proof.
  intros V N [[_ ->]|(s0 & _ & G & ->)].
  - constructor; [|constructor]. destruct V as (A & B & C), N as (A' & B' & C'). cbn [good_seg]. unfold plain in *. rewrite !has_char_app. cbn [has_char]. apply negb_true_iff in A, A'. rewrite A, B, C, A', B', C'. auto.
  - induction G as [|s l G F IH]; cbn [map]; constructor; [now apply good_in_view|exact IH].
Qed.
Lemma cat_app a b : cat (a ++ b) = (cat a ++ cat b)%string.
Proof. induction a as [|x a IH]; cbn [app cat]; [reflexivity|]. now rewrite IH, append_assoc. Qed.

(** ** The joins of the graph *)
Section Graph.
  Variables (vs : list xview) (g : xgraph).
  Hypothesis BUILT : x_build vs = Ok g.
  Lemma built_plain : build (map plain_view vs) = Ok (erase g).
  Proof. rewrite <- erase_build, BUILT. reflexivity. Qed.
  Lemma names_plain : map gv_name (map plain_view vs) = map xv_name vs.
  Proof. rewrite map_map. reflexivity. Qed.
  Lemma get_join_ok a b x : get_join g a b = Ok x -> get_xedge g a b = Some x /\ join_valid x = true.
  Proof. unfold get_join. destruct (get_xedge g a b) as [y|]; [|discriminate]. destruct (join_valid y) eqn:V; [|discriminate]. intros H. injection H as <-. auto. Qed.
  Lemma get_join_plain a b x : get_join g a b = Ok x -> get_edge (erase g) a b = Some (x_edge x).
  Proof. intros H. apply get_join_ok in H. destruct H as [H _]. rewrite erase_edge, H. reflexivity. Qed.
  Lemma kind_of_extra k x : x_extra x = Some k -> join_kind x = declared_kind (x_join_type k).
  Proof.
    intros X. unfold join_kind. rewrite X. destruct (x_join_type k) as [t|]; [|reflexivity]. unfold declared_kind.
    destruct (String.eqb_spec t "left_outer") as [->|A]; [reflexivity|]. destruct (String.eqb_spec t "inner") as [->|B]; [reflexivity|]. destruct (String.eqb_spec t "full_outer") as [->|C]; [reflexivity|]. destruct (String.eqb_spec t "cross") as [->|D]; [reflexivity|].
    repeat match goal with |- KLeft = match ?s with _ => _ end => destruct s; try reflexivity; try congruence end.
  Qed.
  Lemma extra_of a b x : In a (map xv_name vs) -> get_join g a b = Ok x -> x_extra x = match get_xedge (x_reference_map vs) a b with Some y => x_extra y | None => None end.
  Proof. intros I J. apply get_join_ok in J. destruct J as [J _]. rewrite <- (xtra_build vs g a b BUILT I). unfold xtra. now rewrite J. Qed.

  (** C66: without an explicit join between the views the JOIN is a LEFT JOIN *)
  Theorem C66_kind_identifiers a b x : In a (map xv_name vs) -> get_join g a b = Ok x -> (forall r s k, ~ explicit_x vs a b r s k) -> join_kind x = KLeft.
  Proof.
    intros I J N. pose proof (extra_of a b x I J) as X. destruct (get_xedge (x_reference_map vs) a b) as [y|] eqn:R.
    - apply x_reference_spec in R. destruct R as (r & s & k & R & _). destruct (N r s k R).
    - unfold join_kind. now rewrite X.
  Qed.
  (** C66: an explicit join that is kept has its own kind and its own condition *)
  Theorem C66_kind_explicit a b x r s k : In a (map xv_name vs) -> get_join g a b = Ok x -> explicit_x vs a b r s k ->
    (forall r' i j, identifier_join (map plain_view vs) a b r' i j -> rank r <= rank r') ->
    join_kind x = declared_kind (x_join_type k) /\ e_rel (x_edge x) = r /\ e_sql_on (x_edge x) = s.
  Proof.
    intros I J D B. pose proof (extra_of a b x I J) as X. assert (R : get_xedge (x_reference_map vs) a b = Some (XEdge (explicit_edge r s) (Some k))) by (apply x_reference_spec; exists r, s, k; auto). rewrite R in X. cbn [x_extra] in X.
    split; [exact (kind_of_extra k x X)|]. pose proof I as I'. rewrite <- names_plain in I'. destruct (C09_best_relationship_kept (map plain_view vs) (erase g) a b (x_edge x) built_plain I' (get_join_plain a b x J)) as (_ & _ & _ & _ & K).
    exact (K r s (explicit_forget vs a b r s k D) B).
  Qed.
  (** an explicit join that gives way to a better join of identifiers leaves its kind behind *)
  Theorem C66_displaced_kind_refuted a b x r s k r' i j : In a (map xv_name vs) -> get_join g a b = Ok x -> explicit_x vs a b r s k ->
    identifier_join (map plain_view vs) a b r' i j -> rank r' < rank r ->
    (exists i j, identifier_join (map plain_view vs) a b (e_rel (x_edge x)) i j /\ e_sql_on (x_edge x) = (identifier_join_clause i a ++ "=" ++ identifier_join_clause j b)%string)
    /\ join_kind x = declared_kind (x_join_type k).
  Proof.
    intros I J D B L. pose proof (extra_of a b x I J) as X. assert (R : get_xedge (x_reference_map vs) a b = Some (XEdge (explicit_edge r s) (Some k))) by (apply x_reference_spec; exists r, s, k; auto). rewrite R in X. cbn [x_extra] in X.
    split; [|exact (kind_of_extra k x X)]. pose proof I as I'. rewrite <- names_plain in I'. destruct (C09_best_relationship_kept (map plain_view vs) (erase g) a b (x_edge x) built_plain I' (get_join_plain a b x J)) as (O & _ & BI & _ & _).
    destruct O as [(i' & j' & O & _ & S)|[O _]]; [exists i', j'; auto|]. exfalso. specialize (BI r' i j B). destruct O as (pre & post & A & N).
    assert (UQ : e_rel (x_edge x) = r).
    { pose proof (explicit_forget vs a b r s k D) as (pre' & post' & A' & N'). assert (L1 : last_x (all_declarations (map plain_view vs)) a b None = Some (e_rel (x_edge x), e_sql_on (x_edge x))) by (apply last_x_spec; left; exists pre, post; auto).
      assert (L2 : last_x (all_declarations (map plain_view vs)) a b None = Some (r, s)) by (apply last_x_spec; left; exists pre', post'; auto). congruence. }
    rewrite UQ in BI. lia.
  Qed.
  (** C66: the condition of a join of identifiers equates the clauses of the two identifiers, each in its own view *)
  Theorem C66_identifiers_condition E a b x : In a (map xv_name vs) -> get_join g a b = Ok x -> (forall r s k, ~ explicit_x vs a b r s k) ->
    exists i j, identifier_join (map plain_view vs) a b (e_rel (x_edge x)) i j /\
      forall si sj t, good_name a -> good_name b -> good_name (ji_name i) -> good_name (ji_name j) -> clause_of i a si -> clause_of j b sj ->
        (forall n u, In n (refs_of (si ++ Text "=" :: sj)) -> ref_sql E n u -> plain u = true) ->
        (join_clause E g a b = Ok (KLeft, Some t) <-> written E (si ++ Text "=" :: sj) t).
  Proof.
    intros I J N. pose proof I as I'. rewrite <- names_plain in I'. destruct (C09_best_relationship_kept (map plain_view vs) (erase g) a b (x_edge x) built_plain I' (get_join_plain a b x J)) as (O & _).
    destruct O as [(i & j & O & _ & S)|[O _]].
    - exists i, j. split; [exact O|]. intros si sj t GA GB GI GJ CI CJ PV. unfold join_clause. rewrite J. cbn [bind]. rewrite S, (clause_text i a si GA CI), (clause_text j b sj GB CJ), (C66_kind_identifiers a b x I J N).
      replace (sql_of si ++ "=" ++ sql_of sj)%string with (sql_of (si ++ Text "=" :: sj)) by (unfold sql_of; rewrite map_app, cat_app; reflexivity).
      assert (G : Forall good_seg (si ++ Text "=" :: sj)) by (apply Forall_app; split; [exact (clause_good i a si GA GI CI)|constructor; [reflexivity|exact (clause_good j b sj GB GJ CJ)]]).
      rewrite <- (C66_condition E (si ++ Text "=" :: sj) t G PV). destruct (replaced_sql_on E (sql_of (si ++ Text "=" :: sj))) as [[u|]|]; cbn [bind]; split; congruence.
    - exfalso. destruct O as (pre & post & A & NN). assert (L1 : last_x (all_declarations (map plain_view vs)) a b None <> None) by (intros X; assert (Y : last_x (all_declarations (map plain_view vs)) a b None = Some (e_rel (x_edge x), e_sql_on (x_edge x))) by (apply last_x_spec; left; exists pre, post; auto); congruence).
      assert (IN : In (a, b, (e_rel (x_edge x), e_sql_on (x_edge x))) (map forget (all_x vs))) by (rewrite all_forget, A; apply in_app_iff; right; now left). apply in_map_iff in IN. destruct IN as ([[a' b'] [y z]] & X & IN). cbn in X. injection X as -> -> ->.
      destruct (last_x (all_x vs) a b None) as [[[r s] k]|] eqn:L.
      + apply last_x_spec in L. destruct L as [L|[L _]]; [exact (N r s k L)|discriminate L].
      + assert (NX : forall l acc, last_x l a b acc = None -> forall d : rel * string * extra, ~ In (a, b, d) l).
        { clear. induction l as [|[[u v] y] l IH]; intros acc H d; [intros []|]. cbn [last_x] in H. intros [X|K]; [|exact (IH _ H d K)]. injection X as -> -> ->. rewrite !String.eqb_refl in H. cbn [andb] in H. clear IH. revert d H. induction l as [|[[u v] y] l IH]; intros d H; cbn [last_x] in H; [discriminate H|]. destruct (String.eqb a u && String.eqb b v); exact (IH _ H). }
        exact (NX _ _ L _ IN).
  Qed.
  (** an explicit cross join is written with a condition *)
  Theorem C66_cross_refuted E a b x r s k t : In a (map xv_name vs) -> get_join g a b = Ok x -> explicit_x vs a b r s k -> x_join_type k = Some "cross" ->
    (forall r' i j, identifier_join (map plain_view vs) a b r' i j -> rank r <= rank r') -> replaced_sql_on E s = Ok (Some t) -> join_clause E g a b = Ok (KCross, Some t).
  Proof.
    intros I J D X B R. destruct (C66_kind_explicit a b x r s k I J D B) as (K & _ & S). unfold join_clause. rewrite J. cbn [bind]. rewrite S, R. cbn [bind]. rewrite K, X. reflexivity.
  Qed.
  (** an explicit join that also has sql or a foreign_key is refused whenever it is used, and so is the validation of the joins *)
  Theorem C66_extra_argument_refuted E a b r s k : In a (map xv_name vs) -> explicit_x vs a b r s k -> x_sql k || x_key k = true ->
    get_join g a b = Err QueryError /\ join_clause E g a b = Err QueryError.
  Proof.
    intros I D X. assert (R : get_xedge (x_reference_map vs) a b = Some (XEdge (explicit_edge r s) (Some k))) by (apply x_reference_spec; exists r, s, k; auto).
    pose proof (xtra_build vs g a b BUILT I) as Y. rewrite R in Y. cbn [x_extra] in Y. unfold xtra in Y. assert (G : get_join g a b = Err QueryError).
    { unfold get_join. destruct (get_xedge g a b) as [y|]; [|discriminate Y]. unfold join_valid. rewrite Y, X. reflexivity. }
    split; [exact G|]. unfold join_clause. rewrite G. reflexivity.
  Qed.
  (** C66: the errors of all joins *)
  Theorem C66_graph_errors E es r : graph_errors E g = Ok es -> (In r es <-> exists a b x, In (a, b) (edges g) /\ get_join g a b = Ok x /\ In r (join_errors E (e_sql_on (x_edge x)))).
  Proof.
    unfold graph_errors. intros H. apply bind_ok in H. destruct H as [js [M H]]. injection H as <-. apply mapM_ok in M. rewrite in_flat_map. split.
    - intros (x & I & K). destruct (Forall2_In_r _ _ _ M x I) as ([a b] & J & G). exists a, b, x. auto.
    - intros (a & b & x & J & G & K). destruct (Forall2_In_l _ _ _ M (a, b) J) as (y & I & G'). cbn [fst snd] in G'. exists x. split; [|exact K]. congruence.
  Qed.
End Graph.
(** ** Concrete cases *)
Definition sample_env : jenv :=
  JEnv (fun v => if mem v ["orders"; "users"] then Ok v else Err AccessDenied)
       (fun c v => if mem c ["user_id"; "id"; "region"] then Ok (Ok (v ++ "." ++ c)%string) else Err AccessDenied).
Definition sample_id n t sql : xident := XIdent (JIdent n t [] [] "" M2O "" sql None) (Extra None false false).
Definition sample_join ref r on jt : xident := XIdent (JIdent "j" TJoin [] [] ref r on None None) (Extra jt false false).
Definition on_segs : list seg := [Ref "orders.user_id"; Text "="; Ref "s.users.id"; Text " and "; Ref "orders.region"; Text "=1"].
Example C66_condition_case : Forall good_seg on_segs /\ (forall n u, In n (refs_of on_segs) -> ref_sql sample_env n u -> plain u = true) /\ replaced_sql_on sample_env (sql_of on_segs) = Ok (Some "orders.user_id=users.id and orders.region=1").
Proof.
  split; [repeat constructor|]. split; [|reflexivity]. intros n u I (v & c & w & N & V & F). cbn in I. apply names_parts in N. destruct N as [e N].
  repeat (destruct I as [<-|I]); [| | |destruct I]; vm_compute in N; injection N as <- <- <-; vm_compute in V; injection V as <-; vm_compute in F; injection F as <-; reflexivity.
Qed.
(** an identifier with SQL against one without *)
Definition by_ids : list xview := [XView "orders" [sample_id "user" TForeign (Some "lower(${user_id})")]; XView "users" [sample_id "user" TPrimary (Some "${TABLE}.id || ${users.region}")]].
Example C66_identifiers_case : exists g, x_build by_ids = Ok g /\ join_clause sample_env g "orders" "users" = Ok (KLeft, Some "lower(orders.user_id)=users.id || users.region") /\ (forall r s k, ~ explicit_x by_ids "orders" "users" r s k).
Proof. eexists. split; [reflexivity|]. split; [reflexivity|]. intros r s k (pre & post & A & _). destruct pre; discriminate A. Qed.
(** an explicit inner join *)
Definition by_join : list xview := [XView "orders" [sample_join "users" M2O "${orders.user_id}=${users.id}" (Some "inner")]; XView "users" []].
Example C66_kind_explicit_case : exists g, x_build by_join = Ok g /\ join_clause sample_env g "orders" "users" = Ok (KInner, Some "orders.user_id=users.id") /\ exists r s k, explicit_x by_join "orders" "users" r s k.
Proof. eexists. split; [reflexivity|]. split; [reflexivity|]. do 3 eexists. exists [], []. split; [reflexivity|]. intros x []. Qed.
(** an explicit many_to_many inner join beside identifiers that join many_to_one: the identifiers are used, and the join is an inner join *)
Definition displaced : list xview :=
  [XView "orders" [sample_id "user" TForeign (Some "${user_id}"); sample_join "users" M2M "${orders.region}=${users.region}" (Some "inner")]; XView "users" [sample_id "user" TPrimary (Some "${id}")]].
Example C66_displaced_case : exists g, x_build displaced = Ok g /\ join_clause sample_env g "orders" "users" = Ok (KInner, Some "orders.user_id=users.id") /\ exists s k, explicit_x displaced "orders" "users" M2M s k.
Proof. eexists. split; [reflexivity|]. split; [reflexivity|]. do 2 eexists. exists []. eexists. split; [reflexivity|]. intros x []. Qed.
Example C66_cross_case : exists g, x_build [XView "orders" [sample_join "users" M2O "${orders.user_id}=${users.id}" (Some "cross")]; XView "users" []] = Ok g /\ join_clause sample_env g "orders" "users" = Ok (KCross, Some "orders.user_id=users.id").
Proof. eexists. split; reflexivity. Qed.
Example C66_no_view_case : Forall good_seg [Text ""; Ref "user_id"; Text "="; Ref "users.id"] /\ (forall v c, ~ names "user_id" v c) /\ replaced_sql_on sample_env "${user_id}=${users.id}" = Ok None /\ join_errors sample_env "${user_id}=${users.id}" = [JNoView "user_id"].
Proof. split; [repeat constructor|]. split; [intros v c N; apply names_parts in N; destruct N as [e N]; discriminate N|split; reflexivity]. Qed.
Example C66_errors_case : join_errors sample_env "${orders.amount}=${people.id}" = [JField "orders" "amount"; JView "people"].
Proof. reflexivity. Qed.
Example C66_extra_argument_case : exists g, x_build [XView "orders" [XIdent (xi_id (sample_join "users" M2O "${orders.user_id}=${users.id}" None)) (Extra None true false)]; XView "users" []] = Ok g /\ graph_errors sample_env g = Err QueryError.
Proof. eexists. split; reflexivity. Qed.

Print Assumptions C66_condition.
Print Assumptions C66_no_reference_left.
Print Assumptions C66_errors_exact.
Print Assumptions C66_validated_condition.
Print Assumptions C66_no_view_refuted.
Print Assumptions C66_kind_identifiers.
Print Assumptions C66_kind_explicit.
Print Assumptions C66_displaced_kind_refuted.
Print Assumptions C66_identifiers_condition.
Print Assumptions C66_cross_refuted.
Print Assumptions C66_graph_errors.
Print Assumptions C66_extra_argument_refuted.

(** The join of two views that neither the identifiers nor an explicit join connect cannot be asked for: KeyError *)
Theorem C66_not_joined vs g E a b : x_build vs = Ok g -> In a (map xv_name vs) ->
  (forall r i j, ~ identifier_join (map plain_view vs) a b r i j) -> (forall r s, ~ explicit_join (map plain_view vs) a b r s) ->
  join_clause E g a b = Err KeyError.
Proof.
  intros B I N M. pose proof (built_plain vs g B) as BP.
  assert (I' : In a (map gv_name (map plain_view vs))) by (rewrite names_plain; exact I).
  pose proof (C09_exactly_the_permitted_joins (map plain_view vs) (erase g) a b BP I') as [K _].
  unfold join_clause, get_join. destruct (get_xedge g a b) as [x|] eqn:X; [|reflexivity]. exfalso.
  destruct K as [(r & i & j & K)|(r & q & K)]; [|exact (N _ _ _ K)|exact (M _ _ K)].
  exists (x_edge x). now rewrite erase_edge, X.
Qed.
Print Assumptions C66_not_joined.
Example C66_not_joined_case : exists g, x_build [XView "orders" []; XView "users" []] = Ok g /\ join_clause sample_env g "orders" "users" = Err KeyError.
Proof. eexists. split; reflexivity. Qed.
