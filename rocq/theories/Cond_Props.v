(** Specification and property theorems: C48. *)
From Coq Require Import QArith.
From Verif Require Import PyBase PyStr PyRx PyDate Core_Model.
From Verif Require Clause_Model.
From Verif Require Import Filter_Model Filter_Spec Filter_Proofs Cond_Model.
Local Open Scope string_scope.
Local Open Scope list_scope.

(** ** What the expressions mean.  A condition on a column: on NULL it is UNKNOWN, except for the NULL tests. *)
Inductive test :=
| TCmp (c : cmp) (v : cval)                       (* less_than ... on a number, a time, a text or a truth value *)
| TLike (fold neg : bool) (where_ : string) (w : string)   (* contains, starts_with, ends_with, like *)
| TNull (b : bool) | TIn (neg : bool) (l : list string) | TInNum (neg : bool) (l : list Q) | TTrue (b : bool).
Definition texts (where_ w s : string) : bool :=
  if String.eqb where_ "anywhere" then contains w s
  else if String.eqb where_ "start" then starts_with w s else ends_in w s.
Definition holds (t : test) (x : cell) : option bool :=
  match t with
  | TCmp c v => compare_cell c x v
  | TLike fold neg wh w => text_test (fun s => let r := if fold then texts wh (lower w) (lower s) else texts wh w s in if neg then negb r else r) x
  | TNull b => Some (match x with XNull => b | _ => negb b end)
  | TIn neg l => text_test (fun s => let r := existsb (String.eqb s) l in if neg then negb r else r) x
  | TInNum neg l => match x with XNum a => Some (let r := existsb (Qeq_bool a) l in if neg then negb r else r) | _ => None end
  | TTrue b => match x with XBool a => Some (Bool.eqb a b) | _ => None end
  end.
(** How a test is written: expression and value *)
Inductive written : string -> option cval -> test -> Prop :=
| w_cmp e c v : In (e, c) [("less_than", CmpLt); ("less_or_equal_than", CmpLe); ("equal_to", CmpEq); ("not_equal_to", CmpNe); ("greater_or_equal_than", CmpGe); ("greater_than", CmpGt)] ->
    v <> CNone -> written e (Some v) (TCmp c v)
| w_like e fold neg wh w : In (e, (fold, neg, wh))
      [("contains", (false, false, "anywhere")); ("does_not_contain", (false, true, "anywhere"));
       ("contains_case_insensitive", (true, false, "anywhere")); ("does_not_contain_case_insensitive", (true, true, "anywhere"));
       ("starts_with", (false, false, "start")); ("does_not_start_with", (false, true, "start"));
       ("starts_with_case_insensitive", (true, false, "start")); ("does_not_start_with_case_insensitive", (true, true, "start"));
       ("ends_with", (false, false, "end")); ("does_not_end_with", (false, true, "end"));
       ("ends_with_case_insensitive", (true, false, "end")); ("does_not_end_with_case_insensitive", (true, true, "end"))] ->
    no_wild w -> written e (Some (CStr w)) (TLike fold neg wh w)
| w_null v : written "is_null" v (TNull true)
| w_not_null v : written "is_not_null" v (TNull false)
| w_in l : written "isin" (Some (CStrs l)) (TIn false l)
| w_not_in l : written "isnotin" (Some (CStrs l)) (TIn true l)
| w_true v : written "boolean_true" v (TTrue true)
| w_false v : written "boolean_false" v (TTrue false).
(** The value is not the name of a field, nor a time on a warehouse that needs a cast *)
Definition plain_value (qt : string) (value_sql : string -> res string) (v : option cval) : Prop :=
  match v with
  | Some (CStr s) => has_char dot s = false \/ exists e, value_sql s = Err e
  | Some (CTime _) => needs_datetime_cast qt = false
  | None => needs_datetime_cast qt = false
  | _ => True
  end.

Lemma texts_lower_any w s : no_wild w -> like (lower ("%" ++ w ++ "%")) (lower s) = contains (lower w) (lower s).
Proof. apply like_fold_contains. Qed.

Section C48.
  Variable qt : string.
  Variable get_field : string -> res cfield.
  Variable value_sql : string -> res string.
  Variable cast : cfield -> cval -> string.
  Variable matched : cval -> res (list cond).
  Variable num : string -> res Q.
  Notation validate := (validate qt get_field value_sql cast).
  Notation comparisons := (comparisons qt get_field value_sql cast matched num).

  Lemma field_value_plain v : plain_value qt value_sql v -> field_value value_sql v = v.
  Proof.
    unfold plain_value, field_value. destruct v as [[]|]; auto. intros [E|[e E]]; [rewrite E; reflexivity|].
    destruct (has_char dot s); [rewrite E; reflexivity|reflexivity].
  Qed.
  Lemma cast_value_plain f v : plain_value qt value_sql v -> cast_value qt cast f v = Ok v.
  Proof. unfold plain_value, cast_value. destruct (needs_datetime_cast qt); [|reflexivity]. destruct v as [[]|]; auto; discriminate. Qed.
  Lemma written_check e v t k : written e v t -> check_expression (CDef (Some k) (Some e) v) = Ok tt.
  Proof.
    intros W. destruct W as [e c v H N|e fold neg wh w H N|v|v|l|l|v|v]; unfold check_expression; cbn [cd_expression cd_value].
    - simpl in H. repeat (destruct H as [H|H]; [injection H as <- <-; destruct v; try reflexivity; congruence|]). destruct H.
    - simpl in H. repeat (destruct H as [H|H]; [injection H as <- <- <- <-; reflexivity|]). destruct H.
    - destruct v as [[]|]; reflexivity.
    - destruct v as [[]|]; reflexivity.
    - reflexivity.
    - reflexivity.
    - destruct v as [[]|]; reflexivity.
    - destruct v as [[]|]; reflexivity.
  Qed.
  Lemma written_eval e v t number : written e v t -> number = false -> parse_expression e <> EMatches /\
    exists k, criterion num number (parse_expression e) (match v with Some x => x | None => CNone end) = Ok k /\ forall x, eval_crit k x = holds t x.
  Proof.
    intros W ->. destruct W as [e c v H N|e fold neg wh w H N|v|v|l|l|v|v].
    - simpl in H. repeat (destruct H as [H|H]; [injection H as <- <-; split; [discriminate|]; eexists; split; [reflexivity|]; intros x; reflexivity|]). destruct H.
    - pose proof (no_wild_lower w N) as NL. simpl in H.
      repeat (destruct H as [H|H]; [injection H as <- <- <- <-; split; [discriminate|]; eexists; split; [reflexivity|]; intros [|s| | |]; try reflexivity;
        cbn [eval_crit holds text_test str_of]; f_equal; unfold texts; cbn [String.eqb Ascii.eqb Bool.eqb];
        first [f_equal; first [apply like_contains|apply like_starts|apply like_ends|apply like_fold_contains|apply like_fold_starts|apply like_fold_ends]; assumption
              |first [apply like_contains|apply like_starts|apply like_ends|apply like_fold_contains|apply like_fold_starts|apply like_fold_ends]; assumption]|]).
      destruct H.
    - split; [discriminate|]. eexists. split; [reflexivity|]. intros []; reflexivity.
    - split; [discriminate|]. eexists. split; [reflexivity|]. intros []; reflexivity.
    - split; [discriminate|]. eexists. split; [reflexivity|]. intros []; reflexivity.
    - split; [discriminate|]. eexists. split; [reflexivity|]. intros []; reflexivity.
    - split; [discriminate|]. eexists. split; [reflexivity|]. intros [| | |[]|]; reflexivity.
    - split; [discriminate|]. eexists. split; [reflexivity|]. intros [| | |[]|]; reflexivity.
  Qed.

  (** A condition on a field that is neither yes/no nor a number holds exactly when the written test does. *)
  Theorem C48_conditions k f e v t : get_field k = Ok f -> cf_type f <> "yesno" -> cf_type f <> "number" -> written e v t -> plain_value qt value_sql v ->
    exists c, comparisons (CDef (Some k) (Some e) v) = Ok [c] /\ forall x, eval_crit c x = holds t x.
  Proof.
    intros G NY NN W P. unfold Cond_Model.comparisons, Cond_Model.validate. cbn [check cd_field]. cbn [bind]. rewrite (written_check _ _ _ _ W). cbn [bind cd_expression cd_field cd_value].
    rewrite G. cbn [bind]. rewrite field_value_plain by exact P. rewrite cast_value_plain by exact P. cbn [bind]. unfold yesno. apply String.eqb_neq in NY, NN. rewrite NY. cbn [bind].
    rewrite NN. destruct (written_eval e v t false W eq_refl) as (NM & c & C & E). exists c. split; [|exact E].
    rewrite C. destruct (parse_expression e); try reflexivity. congruence.
  Qed.
  (** Numbers: the same; lists of numbers, also when written as texts. *)
  Theorem C48_numbers k f e v t : get_field k = Ok f -> cf_type f = "number" -> plain_value qt value_sql v ->
    (written e v t /\ (forall l, v <> Some (CStrs l)))
    \/ (exists (neg : bool) (l : list string) (ns : list Q), e = (if neg then "isnotin" else "isin") /\ v = Some (CStrs l) /\ mapM num l = Ok ns /\ t = TInNum neg ns)
    \/ (exists (neg : bool) (ns : list Q), e = (if neg then "isnotin" else "isin") /\ v = Some (CNums ns) /\ t = TInNum neg ns) ->
    exists c, comparisons (CDef (Some k) (Some e) v) = Ok [c] /\ forall x, eval_crit c x = holds t x.
  Proof.
    intros G TY P H. unfold Cond_Model.comparisons, Cond_Model.validate. cbn [check cd_field]. cbn [bind].
    assert (CE : check_expression (CDef (Some k) (Some e) v) = Ok tt).
    { destruct H as [[W _]|[(neg & l & ns & -> & -> & _)|(neg & ns & -> & -> & _)]]; [eapply written_check; exact W| |]; destruct neg; reflexivity. }
    rewrite CE. cbn [bind cd_expression cd_field cd_value]. rewrite G. cbn [bind]. rewrite field_value_plain by exact P. rewrite cast_value_plain by exact P. cbn [bind].
    unfold yesno. rewrite TY. cbn [String.eqb Ascii.eqb Bool.eqb bind].
    destruct H as [[W NL]|[(neg & l & ns & -> & -> & M & ->)|(neg & ns & -> & -> & ->)]].
    - destruct (written_eval e v t false W eq_refl) as (NM & c & C & E). exists c. split; [|exact E].
      assert (CT : criterion num true (parse_expression e) (match v with Some x => x | None => CNone end) = Ok c).
      { rewrite <- C. unfold criterion. destruct v as [[]|]; try reflexivity; try (destruct (parse_expression e); reflexivity). exfalso. apply (NL l). reflexivity. }
      rewrite TY. change (String.eqb "number" "number") with true. rewrite CT. destruct (parse_expression e); try reflexivity. congruence.
    - rewrite TY. destruct neg.
      + exists (KNotIn (CNums ns)). split; [|intros []; reflexivity]. change (parse_expression "isnotin") with EIsNotIn. unfold criterion. rewrite M. reflexivity.
      + exists (KIn (CNums ns)). split; [|intros []; reflexivity]. change (parse_expression "isin") with EIsIn. unfold criterion. rewrite M. reflexivity.
    - rewrite TY. destruct neg; eexists; (split; [reflexivity|]); intros []; reflexivity.
  Qed.
  (** Yes/no fields: equal_to a truth value, and the tests without a value when one is given nevertheless. *)
  Theorem C48_yesno k f b : get_field k = Ok f -> cf_type f = "yesno" ->
    exists c, comparisons (CDef (Some k) (Some "equal_to") (Some (CBool b))) = Ok [c] /\ forall x, eval_crit c x = holds (TCmp CmpEq (CBool b)) x.
  Proof.
    intros G TY. unfold Cond_Model.comparisons, Cond_Model.validate. cbn [check cd_field check_expression cd_expression cd_value bind]. rewrite G. cbn [bind field_value].
    assert (CV : cast_value qt cast f (Some (CBool b)) = Ok (Some (CBool b))) by (unfold cast_value; destruct (needs_datetime_cast qt); reflexivity).
    rewrite CV. cbn [bind]. unfold yesno. rewrite TY. cbn [String.eqb Ascii.eqb Bool.eqb bind].
    destruct b; eexists; (split; [vm_compute; reflexivity|]); intros [| | |[]|]; reflexivity.
  Qed.
  (** The value of a condition on a yes/no field that has the word True, or else the word False, in it decides, whatever the expression;
      a value with neither is compared as on any other field *)
  Inductive said (w : string) : cval -> Prop :=
  | said_text a b : said w (CStr (a ++ w ++ b))
  | said_literal a b : said w (CLit (a ++ w ++ b))
  | said_bool (b : bool) : w = (if b then "True" else "False") -> said w (CBool b)
  | said_member l a b : In (a ++ w ++ b)%string l -> said w (CStrs l).
  Lemma shows_said w v : In w ["True"; "False"] -> shows w v = true <-> said w v.
  Proof.
    intros W. destruct v; cbn [shows].
    all: try (split; [discriminate|]; intros H; inversion H; fail).
    all: try (rewrite contains_spec; split; [intros (a & b & ->); constructor|intros H; inversion H; eauto]; fail).
    all: try (rewrite existsb_exists; split; [intros (x & I & C); apply contains_spec in C; destruct C as (a & b & ->); econstructor; exact I|intros H; inversion H; subst; eexists; split; [eassumption|]; apply contains_spec; eauto]; fail).
    all: try (split; [destruct W as [<-|[<-|[]]]; discriminate|intros H; inversion H]; fail).
    split; [intros H; constructor; destruct W as [<-|[<-|[]]], b; (reflexivity || discriminate H)|intros H; inversion H as [| |b' E|]; subst; destruct b; reflexivity].
  Qed.
  Theorem C48_yesno_said k f e v : get_field k = Ok f -> cf_type f = "yesno" -> e <> "UNKNOWN" -> v <> CNone -> plain_value qt value_sql (Some v) ->
    (said "True" v -> comparisons (CDef (Some k) (Some e) (Some v)) = Ok [KTrue]) /\
    (~ said "True" v -> said "False" v -> comparisons (CDef (Some k) (Some e) (Some v)) = Ok [KNot]) /\
    (~ said "True" v -> ~ said "False" v -> forall t, written e (Some v) t -> exists c, comparisons (CDef (Some k) (Some e) (Some v)) = Ok [c] /\ forall x, eval_crit c x = holds t x).
  Proof.
    intros G TY NU NV P.
    assert (CE : check_expression (CDef (Some k) (Some e) (Some v)) = Ok tt).
    { unfold check_expression. cbn [cd_expression cd_value].
      assert (D : match v with CNone => if mem e no_value_needed then Ok tt else Err ParseError | _ => Ok tt end = Ok tt) by (destruct v; congruence).
      repeat match goal with |- (match ?s with _ => _ end) = Ok tt => match type of s with string => destruct s | ascii => destruct s | bool => destruct s end; try exact D end; congruence. }
    unfold Cond_Model.comparisons, Cond_Model.validate. cbn [check cd_field bind]. rewrite CE. cbn [bind cd_expression cd_field cd_value]. rewrite G. cbn [bind].
    rewrite field_value_plain by exact P. rewrite cast_value_plain by exact P. cbn [bind]. unfold yesno. rewrite TY. cbn [String.eqb Ascii.eqb Bool.eqb bind].
    assert (T := shows_said "True" v ltac:(cbn; tauto)). assert (F := shows_said "False" v ltac:(cbn; tauto)).
    split; [|split].
    - intros S. apply T in S. rewrite S. reflexivity.
    - intros N S. apply F in S. destruct (shows "True" v); [tauto|]. rewrite S. reflexivity.
    - intros N M t W. destruct (shows "True" v); [tauto|]. destruct (shows "False" v); [tauto|]. cbn [bind].
      destruct (written_eval e (Some v) t false W eq_refl) as (NM & c & C & E). exists c. split; [|exact E].
      rewrite TY. change (String.eqb "yesno" "number") with false. rewrite C. destruct (parse_expression e); try reflexivity. congruence.
  Qed.
  (** A condition that is not understood is refused: missing value, unknown expression, unknown field. *)
  Definition stands_alone (e : string) : Prop := e = "is_null" \/ e = "is_not_null" \/ e = "boolean_true" \/ e = "boolean_false" \/ e = "converted" \/ e = "dropped_off".
  Lemma no_value_needed_spec e : In e no_value_needed <-> stands_alone e.
  Proof. unfold no_value_needed, stands_alone. cbn [In]. intuition congruence. Qed.
  Theorem C48_refused k e v :
    (e = "UNKNOWN" -> validate (CDef (Some k) (Some e) v) = Err NotImplemented)
    /\ (e <> "UNKNOWN" -> ~ stands_alone e -> v = None \/ v = Some CNone -> validate (CDef (Some k) (Some e) v) = Err ParseError)
    /\ (forall x, e <> "UNKNOWN" -> v <> None -> v <> Some CNone -> get_field k = Err x -> validate (CDef (Some k) (Some e) v) = Err x)
    /\ validate (CDef None (Some e) None) = Err ParseError.
  Proof.
    assert (CE : e <> "UNKNOWN" -> check_expression (CDef (Some k) (Some e) v) = match v with None | Some CNone => if mem e no_value_needed then Ok tt else Err ParseError | _ => Ok tt end).
    { intros NU. unfold check_expression. cbn [cd_expression cd_value].
      repeat match goal with |- (match ?s with _ => _ end) = _ => is_var s; destruct s; try reflexivity; try congruence
             | |- (match ?s with _ => _ end) = _ => match type of s with ascii => destruct s | bool => destruct s end; try reflexivity end; congruence. }
    split; [intros ->; reflexivity|]. split; [|split].
    - intros NU NI V. unfold Cond_Model.validate. cbn [check cd_field bind]. rewrite (CE NU). rewrite <- no_value_needed_spec in NI. apply mem_false in NI. rewrite NI. destruct V as [-> | ->]; reflexivity.
    - intros x NU V1 V2 G. unfold Cond_Model.validate. cbn [check cd_field bind]. rewrite (CE NU). destruct v as [[]|]; try congruence; cbn [bind cd_expression cd_field]; rewrite G; reflexivity.
    - reflexivity.
  Qed.
  (** An expression that stands alone is accepted without a value, except on yes/no fields and where times are cast, where the missing
      value is a KeyError *)
  Definition casts_times : Prop := qt = "BIGQUERY" \/ qt = "TRINO".
  Lemma casts_times_spec : needs_datetime_cast qt = true <-> casts_times.
  Proof. unfold needs_datetime_cast, casts_times. rewrite mem_In. cbn [In]. intuition congruence. Qed.
  Theorem C48_stands_alone k f e : get_field k = Ok f -> stands_alone e ->
    (cf_type f = "yesno" \/ casts_times -> validate (CDef (Some k) (Some e) None) = Err KeyError) /\
    (cf_type f <> "yesno" -> ~ casts_times -> validate (CDef (Some k) (Some e) None) = Ok (Some f, parse_expression e, CNone)).
  Proof.
    intros G A. rewrite <- casts_times_spec.
    assert (CE : check_expression (CDef (Some k) (Some e) None) = Ok tt).
    { unfold stands_alone in A. repeat (destruct A as [->|A]; [reflexivity|]). subst e. reflexivity. }
    unfold Cond_Model.validate. cbn [check cd_field bind]. rewrite CE. cbn [bind cd_expression cd_field cd_value field_value]. rewrite G. cbn [bind]. unfold cast_value, yesno.
    split; intros H.
    - destruct (needs_datetime_cast qt); [reflexivity|]. destruct H as [->|]; [reflexivity|discriminate].
    - intros H2. destruct (needs_datetime_cast qt); [tauto|]. apply String.eqb_neq in H. cbn [bind]. rewrite H. reflexivity.
  Qed.
  (** A time is compared as a time, or as its cast text on BigQuery and Trino *)
  Theorem C48_times k f e c t : get_field k = Ok f -> cf_type f <> "yesno" -> In (e, c) [("less_than", CmpLt); ("less_or_equal_than", CmpLe); ("equal_to", CmpEq); ("not_equal_to", CmpNe); ("greater_or_equal_than", CmpGe); ("greater_than", CmpGt)] ->
    (casts_times -> comparisons (CDef (Some k) (Some e) (Some (CTime t))) = Ok [KCmp c (CLit (cast f (CTime t)))]) /\
    (~ casts_times -> comparisons (CDef (Some k) (Some e) (Some (CTime t))) = Ok [KCmp c (CTime t)]).
  Proof.
    intros G NY I. rewrite <- casts_times_spec. apply String.eqb_neq in NY. cbn [In] in I.
    repeat (destruct I as [I|I]; [injection I as <- <-; unfold Cond_Model.comparisons, Cond_Model.validate; cbn [check cd_field bind check_expression cd_expression cd_value field_value]; rewrite G; cbn [bind];
      unfold cast_value, yesno; destruct (needs_datetime_cast qt); (split; intros H; try congruence); cbn [bind]; rewrite NY; cbn [bind]; reflexivity|]). destruct I.
  Qed.
  (** A matches condition is the conditions its text stands for, each as if it had been written; on BigQuery and Trino each value is cast *)
  Inductive meant (number : bool) : string -> cval -> test -> Prop :=
  | meant_written e v t : written e (Some v) t -> (number = true -> forall l, v <> CStrs l) -> meant number e v t
  | meant_texts (neg : bool) l ns : number = true -> mapM num l = Ok ns -> meant number (if neg then "isnotin" else "isin") (CStrs l) (TInNum neg ns)
  | meant_numbers (neg : bool) ns : meant number (if neg then "isnotin" else "isin") (CNums ns) (TInNum neg ns).
  Lemma meant_eval number e v t : meant number e v t -> exists c, criterion num number (parse_expression e) v = Ok c /\ forall x, eval_crit c x = holds t x.
  Proof.
    intros M. destruct M as [e v t W NL|neg l ns -> M|neg ns].
    - destruct (written_eval e (Some v) t false W eq_refl) as (_ & c & C & E). exists c. split; [|exact E]. rewrite <- C. destruct number; [|reflexivity].
      unfold criterion. destruct v; try reflexivity; try (destruct (parse_expression e); reflexivity). exfalso. apply (NL eq_refl l). reflexivity.
    - exists (if neg then KNotIn (CNums ns) else KIn (CNums ns)). destruct neg; (split; [|intros []; reflexivity]).
      + change (parse_expression "isnotin") with EIsNotIn. unfold criterion. rewrite M. reflexivity.
      + change (parse_expression "isin") with EIsIn. unfold criterion. rewrite M. reflexivity.
    - destruct number, neg; eexists; (split; [reflexivity|]); intros []; reflexivity.
  Qed.
  Theorem C48_matches k f v cs : get_field k = Ok f -> cf_type f <> "yesno" -> v <> CNone -> plain_value qt value_sql (Some v) ->
    matched v = Ok (map (fun ev => (parse_expression (fst ev), snd ev)) cs) ->
    (~ casts_times -> forall ts, Forall2 (fun ev t => meant (String.eqb (cf_type f) "number") (fst ev) (snd ev) t) cs ts ->
      exists ks, comparisons (CDef (Some k) (Some "matches") (Some v)) = Ok ks /\ Forall2 (fun c t => forall x, eval_crit c x = holds t x) ks ts) /\
    (casts_times -> forall ops, Forall2 (fun ev c => In (fst ev, c) [("less_than", CmpLt); ("less_or_equal_than", CmpLe); ("equal_to", CmpEq); ("not_equal_to", CmpNe); ("greater_or_equal_than", CmpGe); ("greater_than", CmpGt)]) cs ops ->
      exists ks, comparisons (CDef (Some k) (Some "matches") (Some v)) = Ok ks /\ Forall2 (fun c evc => c = KCmp (snd evc) (CLit (cast f (snd (fst evc))))) ks (combine cs ops)).
  Proof.
    intros G NY NV P M. assert (CE : check_expression (CDef (Some k) (Some "matches") (Some v)) = Ok tt) by (destruct v; try reflexivity; congruence).
    apply String.eqb_neq in NY.
    unfold Cond_Model.comparisons, Cond_Model.validate. cbn [check cd_field bind]. rewrite CE. cbn [bind cd_expression cd_field cd_value]. rewrite G. cbn [bind].
    rewrite field_value_plain by exact P. rewrite cast_value_plain by exact P. cbn [bind]. unfold yesno. rewrite NY. cbn [bind]. change (parse_expression "matches") with EMatches. cbv beta iota. rewrite M. cbn [bind].
    rewrite <- casts_times_spec. split.
    - intros N ts F. destruct (needs_datetime_cast qt); [tauto|]. clear - F. induction F as [|[e w] t cs ts H F IH]; [exists []; split; [reflexivity|constructor]|].
      destruct IH as (ks & K & A). cbn [fst snd] in H. destruct (meant_eval _ _ _ _ H) as (c & C & E). exists (c :: ks). split; [|constructor; assumption].
      cbn [map mapM fst snd]. cbv zeta. rewrite C. cbn [bind]. rewrite K. reflexivity.
    - intros ->. intros ops F. clear - F. induction F as [|[e w] t cs ts H F IH]; [exists []; split; [reflexivity|constructor]|].
      destruct IH as (ks & K & A). cbn [fst snd] in H. exists (KCmp t (CLit (cast f w)) :: ks). split; [|constructor; [reflexivity|exact A]].
      cbn [map mapM fst snd]. cbv zeta. rewrite K. cbn [In] in H.
      repeat (destruct H as [H|H]; [injection H as <- <-; destruct (String.eqb (cf_type f) "number"); reflexivity|]). destruct H.
  Qed.
  (** A condition without a field: refused, unless its value is True or a text that spells true; that one is accepted and has no SQL *)
  Theorem C48_no_field e v :
    let spells := v = Some (CBool true) \/ exists s, v = Some (CStr s) /\ lower s = "true" in
    (~ spells -> validate (CDef None e v) = Err ParseError) /\
    (spells -> e = None -> validate (CDef None e v) = Err KeyError) /\
    (spells -> forall x, e = Some x -> x <> "UNKNOWN" -> validate (CDef None e v) = Ok (None, parse_expression x, CBool true) /\ comparisons (CDef None e v) = Err AttributeError).
  Proof.
    intros spells.
    assert (B : is_boolean_value (CDef None e v) = true <-> spells).
    { unfold is_boolean_value, spells. cbn [cd_field cd_value]. destruct v as [[|[]|s|q|l|l|t|s]|].
      all: try (split; [discriminate|intros [H|(y & H & _)]; discriminate H]).
      - split; auto.
      - rewrite String.eqb_eq. split; [intros H; right; eauto|intros [H|(y & H & E)]; [discriminate H|congruence]]. }
    unfold Cond_Model.comparisons, Cond_Model.validate. cbn [check cd_field]. destruct (is_boolean_value (CDef None e v)).
    - split; [intros H; exfalso; apply H, B; reflexivity|]. split; [intros _ ->; reflexivity|]. intros H x -> NU. cbn [bind].
      assert (CE : check_expression (CDef None (Some x) v) = Ok tt).
      { unfold check_expression. cbn [cd_expression cd_value].
        assert (D : match v with None | Some CNone => if mem x no_value_needed then Ok tt else Err ParseError | _ => Ok tt end = Ok tt) by (destruct H as [->|(y & -> & _)]; reflexivity).
        repeat match goal with |- (match ?s with _ => _ end) = Ok tt => match type of s with string => destruct s | ascii => destruct s | bool => destruct s end; try exact D end; congruence. }
      rewrite CE. cbn [bind cd_expression]. split; reflexivity.
    - split; [reflexivity|]. split; intros H; apply B in H; discriminate H.
  Qed.
End C48.
Print Assumptions C48_conditions.
Print Assumptions C48_numbers.
Print Assumptions C48_yesno.
Print Assumptions C48_yesno_said.
Print Assumptions C48_refused.
Print Assumptions C48_stands_alone.
Print Assumptions C48_times.
Print Assumptions C48_matches.
Print Assumptions C48_no_field.

(** ** A concrete project *)
Definition ex_field (k : string) : res cfield :=
  if String.eqb k "orders.region" then Ok (CField "string" "string")
  else if String.eqb k "orders.new" then Ok (CField "yesno" "string")
  else if String.eqb k "orders.n" then Ok (CField "number" "number") else Err AccessDenied.
Definition ex_sql (s : string) : res string := _ <- ex_field s ;; Ok "orders.REGION".
Definition ex_num (s : string) : res Q := if String.eqb s "3" then Ok 3%Q else Err ValueError.
Definition ex_comparisons qt := comparisons qt ex_field ex_sql (fun _ _ => "") (fun _ => Ok []) ex_num.
Example C48_example :
  written "contains" (Some (CStr "est")) (TLike false false "anywhere" "est")
  /\ plain_value "SNOWFLAKE" ex_sql (Some (CStr "est"))
  /\ ex_comparisons "SNOWFLAKE" (CDef (Some "orders.region") (Some "contains") (Some (CStr "est"))) = Ok [KLike false false "%est%"]
  /\ holds (TLike false false "anywhere" "est") (XStr "West") = Some true
  /\ holds (TLike false false "anywhere" "est") (XStr "North") = Some false
  /\ holds (TLike false true "anywhere" "est") XNull = None
  /\ ex_comparisons "SNOWFLAKE" (CDef (Some "orders.n") (Some "isin") (Some (CStrs ["3"]))) = Ok [KIn (CNums [3%Q])]
  /\ ex_comparisons "SNOWFLAKE" (CDef (Some "orders.new") (Some "equal_to") (Some (CBool false))) = Ok [KNot].
Proof. split; [apply w_like; [left; reflexivity|repeat constructor; discriminate]|]. split; [left; reflexivity|]. vm_compute. repeat split; reflexivity. Qed.

(** On a yes/no field every expression with a truth value is read as equal_to: not_equal_to False selects the
    rows that are False, and boolean_false with value True the rows that are True. *)
Theorem C48_yesno_not_equal_refuted : exists f e v t c x, ex_field "orders.new" = Ok f /\ cf_type f = "yesno" /\ written e v t
  /\ plain_value "SNOWFLAKE" ex_sql v /\ ex_comparisons "SNOWFLAKE" (CDef (Some "orders.new") (Some e) v) = Ok [c]
  /\ holds t x = Some true /\ eval_crit c x = Some false.
Proof.
  exists (CField "yesno" "string"), "not_equal_to", (Some (CBool false)), (TCmp CmpNe (CBool false)), KNot, (XBool true).
  repeat split. constructor; [simpl; tauto|discriminate].
Qed.
Print Assumptions C48_yesno_not_equal_refuted.
(** NULL tests without a value key: a KeyError on yes/no fields, and on every field for BigQuery and Trino. *)
Theorem C48_null_test_refuted :
  (exists t, written "is_null" None t) /\
  ex_comparisons "SNOWFLAKE" (CDef (Some "orders.new") (Some "is_null") None) = Err KeyError
  /\ ex_comparisons "BIGQUERY" (CDef (Some "orders.region") (Some "is_null") None) = Err KeyError
  /\ ex_comparisons "SNOWFLAKE" (CDef (Some "orders.region") (Some "is_null") None) = Ok [KIsNull].
Proof. split; [eexists; constructor|]. repeat split. Qed.
Print Assumptions C48_null_test_refuted.
(** A text that happens to be the name of a field is not compared as a text. *)
Theorem C48_field_name_value_refuted :
  ex_comparisons "SNOWFLAKE" (CDef (Some "orders.region") (Some "equal_to") (Some (CStr "orders.n"))) = Ok [KCmp CmpEq (CLit "orders.REGION")]
  /\ holds (TCmp CmpEq (CStr "orders.n")) (XStr "orders.n") = Some true.
Proof. split; reflexivity. Qed.
Print Assumptions C48_field_name_value_refuted.
(** % and _ in a searched text are wildcards. *)
Theorem C48_wildcard_refuted : exists w s c, ex_comparisons "SNOWFLAKE" (CDef (Some "orders.region") (Some "contains") (Some (CStr w))) = Ok [c]
  /\ eval_crit c (XStr s) = Some true /\ contains w s = false.
Proof. exists "a_b", "axb", (KLike false false "%a_b%"). repeat split. Qed.
Print Assumptions C48_wildcard_refuted.
(** An expression that is not in the list is a QueryError. *)
Theorem C48_unknown_expression e k v f qt get value_sql cast matched num : assoc e expression_names = None ->
  get k = Ok f -> cf_type f <> "yesno" -> e <> "UNKNOWN" -> v <> CNone -> plain_value qt value_sql (Some v) ->
  comparisons qt get value_sql cast matched num (CDef (Some k) (Some e) (Some v)) = Err QueryError.
Proof.
  intros A G NY NU NV P.
  assert (CE : check_expression (CDef (Some k) (Some e) (Some v)) = Ok tt).
  { unfold check_expression. cbn [cd_expression cd_value].
    assert (D : match v with CNone => if mem e no_value_needed then Ok tt else Err ParseError | _ => Ok tt end = Ok tt) by (destruct v; congruence).
    repeat match goal with |- (match ?s with _ => _ end) = Ok tt => match type of s with string => destruct s | ascii => destruct s | bool => destruct s end; try exact D end; congruence. }
  unfold Cond_Model.comparisons, Cond_Model.validate. cbn [check cd_field bind]. rewrite CE. cbn [bind cd_expression cd_field cd_value]. rewrite G. cbn [bind].
  rewrite field_value_plain with (qt := qt) by exact P. rewrite cast_value_plain with (value_sql := value_sql) by exact P. cbn [bind]. unfold yesno. apply String.eqb_neq in NY. rewrite NY. cbn [bind].
  unfold parse_expression. rewrite A. destruct v; reflexivity.
Qed.
Print Assumptions C48_unknown_expression.
(** A matches condition with an empty text stands for no comparison.  Alone it filters nothing; after another condition it has no text in
    SQL and the query raises; before another it is as if it had not been written. *)
Theorem C48_empty_matches_refuted num now g w : fst (filter_dict num now g (VStr "") w) = Ok [] /\
  forall (A L : Type) (leaf_ok : L -> res unit) (comparisons : L -> res (list A)) x y a,
    leaf_ok x = Ok tt -> leaf_ok y = Ok tt -> comparisons x = Ok [a] -> comparisons y = Ok [] ->
    let clause l := Clause_Model.where_sql leaf_ok comparisons None (Clause_Model.ListWhere (map Clause_Model.FLeaf l)) in
    clause [y] = Ok None /\ (exists e, clause [x; y] = Err e) /\ clause [y; x] = clause [x] /\ clause [x] = Ok (Some [Clause_Model.TAtom a]).
Proof.
  split; [reflexivity|]. intros A L leaf_ok comparisons x y a X Y CX CY clause. unfold clause, Clause_Model.where_sql, Clause_Model.parse_filter_object. cbn [map List.app mapM].
  unfold Clause_Model.filter_sql. cbn [Clause_Model.validate]. rewrite X, Y. cbn [bind Clause_Model.group_sql_query]. unfold Clause_Model.criterion. rewrite CX, CY. cbn [bind map].
  split; [reflexivity|]. split; [eexists; reflexivity|]. split; reflexivity.
Qed.
Print Assumptions C48_empty_matches_refuted.
